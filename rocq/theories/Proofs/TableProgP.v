(* The directories of location tables and the program that loads them. *)
From Verif.Model Require Import Base Util Float Freq Tables Json Options Tmc Station Channel Input Csv Main TmcFiles.
From Verif.Spec Require Import Numerals JsonText Session Inputs Labels Traffic CommandLine TableFiles.
From Verif.Proofs Require Import Tac Numerals FreqP InputP JsonP Utf8P LinesP SessionP CommandP TableFilesP.
From Verif.Model Require Import Main.
Local Open Scope string_scope.
Local Open Scope N_scope.
Local Open Scope list_scope.

Lemma fold_last : forall {A} (es : list A) a, fold_left (fun _ e => e) es a = last es a.
Proof.
  intros A es. induction es as [|e es IH]; intros a; [reflexivity|]. cbn [fold_left]. rewrite IH. destruct es as [|e' es]; [reflexivity|]. cbn [last]. clear IH.
  revert e'. induction es as [|x es IH]; intros e'; [reflexivity|]. exact (IH x).
Qed.
Lemma number_read : forall fe dir numbers, table is_data_set (file_of fe dir "/LOCATIONDATASETS.DAT") numbers -> readLTN fe dir = last numbers 0.
Proof.
  intros fe dir numbers T. destruct (table_rows _ _ _ T) as (titles & rest & E & L). unfold readLTN. rewrite E. cbn [tb_rows].
  rewrite (fold_lines (is_data_set titles) _ (fun _ n => n)) with (es := numbers); [apply fold_last| | |exact L].
  - intros l a b C. rewrite (cell_code _ _ _ _ _ C). reflexivity.
  - intros l b B. unfold get_uint16, get_int. rewrite blank_string by exact B. reflexivity.
Qed.

(* ---- the encoding ---- *)
Lemma word_is : forall c, word_character c = true <-> in_word c. Proof. intros c. unfold word_character, in_word. lia. Qed.
Lemma spelling_is : forall part e, Forall (fun c => c <> 10 /\ c <> 13) e -> iso_8859 part e = true <-> spelling part e.
Proof.
  intros part e P. split.
  - intros H. destruct e as [|a [|b [|c [|x r]]]]; try (exfalso; revert H; unfold iso_8859; repeat match goal with |- (match ?x with _ => _ end) = true -> _ => destruct x end; discriminate).
    assert (Ea : a = 73 /\ b = 83 /\ c = 79).
    { clear -H. destruct (N.eq_dec a 73) as [->|Na]; [destruct (N.eq_dec b 83) as [->|Nb]; [destruct (N.eq_dec c 79) as [->|Nc]; [auto|]|]|]; exfalso; revert H; unfold iso_8859;
        repeat match goal with |- (match ?x with _ => _ end) = true -> _ => destruct x end; try discriminate; congruence. }
    destruct Ea as (-> & -> & ->). unfold iso_8859 in H. cbv zeta in H. set (name := bs "8859-" ++ part) in *.
    apply andb_prop in H. destruct H as (H1 & H2). apply andb_prop in H1. destruct H1 as (_ & H1). apply andb_prop in H2. destruct H2 as (_ & H2). apply bytes_eqb_eq in H1.
    exists x, (skipn (length name) r). split.
    + rewrite <- (firstn_skipn (length name) r) at 1. rewrite H1. unfold name. rewrite <- app_assoc. reflexivity.
    + destruct (skipn (length name) r) as [|d t]; [exact I|]. rewrite <- word_is. destruct (word_character d); [discriminate|discriminate].
  - intros (x & rest & -> & B). cbn [bs list_ascii_of_string map app] in P |- *.
    assert (Pr : Forall (fun c => c <> 10 /\ c <> 13) (x :: rest)).
    { rewrite Forall_forall in *. intros c [<-|I]; apply P; [cbn; tauto|]. do 9 right. apply in_or_app. right. exact I. }
    apply Forall_cons_iff in Pr. destruct Pr as (Px & Pr).
    change (iso_8859 part (73 :: 83 :: 79 :: x :: bs "8859-" ++ part ++ rest) = true). unfold iso_8859. cbv zeta.
    rewrite app_assoc. rewrite firstn_app, firstn_all, Nat.sub_diag, skipn_app, skipn_all, Nat.sub_diag. cbn [firstn skipn app]. rewrite app_nil_r.
    rewrite (proj2 (bytes_eqb_eq _ _) eq_refl). replace (not_line_end x) with true by (unfold not_line_end; lia). cbn [andb].
    replace (forallb not_line_end rest) with true. 2: { symmetry. apply forallb_forall. rewrite Forall_forall in Pr. intros c I. specialize (Pr c I). unfold not_line_end. lia. }
    cbn [andb]. destruct rest as [|c r]; [reflexivity|]. rewrite <- word_is in B. destruct (word_character c); [exfalso; apply B; reflexivity|reflexivity].
Qed.
Lemma fifth_at : forall l f, fifth l f -> row_at (CSVRow_new l semicolon) 4 = Some f.
Proof. intros l f (fields & Lo & Nf). rewrite row_at_all. unfold semicolon. rewrite (line_fields 59 _ _ ltac:(lia) ltac:(lia) Lo). exact Nf. Qed.
Lemma no_fifth_at : forall l, no_fifth l -> row_at (CSVRow_new l semicolon) 4 = None.
Proof.
  intros l [B|(fields & Lo & Nf)]; [apply blank_at; [unfold semicolon; lia ..|exact B]|].
  rewrite row_at_all. unfold semicolon. rewrite (line_fields 59 _ _ ltac:(lia) ltac:(lia) Lo). apply nth_error_None. change (N.to_nat 4) with 4%nat. lia.
Qed.
Lemma lines_forall : forall {A} (entry : bytes -> A -> Prop) ignored lines es (P : A -> Prop), lines_are entry ignored lines es -> (forall l a, entry l a -> P a) -> Forall P es.
Proof. intros A entry ignored lines es P L H. induction L; [constructor|constructor; eauto|assumption]. Qed.
Lemma readme_read : forall lines es, lines_are fifth no_fifth lines es -> forall e,
  fold_left (fun e row => match row_at row 4 with Some f => f | None => e end) (readCSV lines semicolon) e = last es e.
Proof.
  intros lines es L. induction L as [|l f ls es E L IH|l ls es E L IH]; intros e; [reflexivity| |]; unfold readCSV; cbn [map fold_left]; fold (readCSV ls semicolon).
  - rewrite (fifth_at _ _ E), IH, <- !fold_last. reflexivity.
  - rewrite (no_fifth_at _ E). apply IH.
Qed.
Lemma encoding_read : forall lines es m, lines_are fifth no_fifth lines es -> encoding_meant (last es (bs "UTF-8")) m -> encoding_of lines = m.
Proof.
  intros lines es m L M. unfold encoding_of. rewrite (readme_read _ _ L). cbv zeta. set (e := last es (bs "UTF-8")) in *.
  assert (P : Forall (fun c => c <> 10 /\ c <> 13) e).
  { assert (Q : Forall (Forall (fun c => c <> 10 /\ c <> 13)) es).
    { apply (lines_forall _ _ _ _ _ L). intros l a (fields & (_ & F & _) & Nf). apply nth_error_In in Nf. rewrite Forall_forall in F. specialize (F a Nf). unfold plain in F.
      apply Forall_forall. intros c I. rewrite Forall_forall in F. apply (F c I). }
    unfold e. clear -Q. rewrite <- fold_last. assert (U : Forall (fun c => c <> 10 /\ c <> 13) (bs "UTF-8")) by (cbn; repeat constructor; discriminate).
    revert U. generalize (bs "UTF-8"). induction Q as [|a es H Q IH]; intros x U; [exact U|]. cbn [fold_left]. apply IH. exact H. }
  pose proof (spelling_is (bs "1") e P) as S1. pose proof (spelling_is (bs "15") e P) as S15.
  destruct M as [(H & ->)|[(H & ->)|(H1 & H2 & ->)]].
  - apply S1 in H. rewrite H. reflexivity.
  - destruct (iso_8859 (bs "1") e) eqn:E1.
    + exfalso. assert (E2 := proj1 (spelling_is (bs "1") e P) E1). clear -H E2. destruct E2 as (x & r & E & B). destruct H as (y & s & E' & _). rewrite E' in E. cbn in E. injection E as _ E. subst r. apply B. unfold in_word. lia.
    + apply S15 in H. rewrite H. reflexivity.
  - destruct (iso_8859 (bs "1") e) eqn:E1; [exfalso; apply H1; apply S1; reflexivity|]. destruct (iso_8859 (bs "15") e) eqn:E2; [exfalso; apply H2; apply S15; reflexivity|reflexivity].
Qed.

(* ---- the line about a table ---- *)
Definition no_float (f : spec_float) : bytes := bs "null".
Definition info_json (a b c d : N) : json :=
  JObj [("location_table_info", JObj [("ltn", JN a); ("num_points", JN b); ("num_roads", JN c); ("num_names", JN d)])].
Lemma info_dump : forall lt, location_table_info lt = dump no_float (info_json (lt_ltn lt) (distinct N.eqb (map fst (lt_points lt)))
  (distinct N.eqb (map fst (lt_roads lt))) (distinct Z.eqb (map fst (lt_names lt)))).
Proof.
  intros lt. unfold location_table_info, info_json, JN. cbn [dump map fst snd join]. rewrite !dec_string_Z_of_N.
  generalize (dec_string (lt_ltn lt)) (dec_string (distinct N.eqb (map fst (lt_points lt)))) (dec_string (distinct N.eqb (map fst (lt_roads lt)))) (dec_string (distinct Z.eqb (map fst (lt_names lt)))).
  intros x y z u. cbv [bs list_ascii_of_string map N_of_ascii dump_string flat_map escape_byte].
  cbn. repeat (progress (repeat rewrite <- app_assoc; cbn [app])). reflexivity.
Qed.
Lemma info_says : forall lt dir,
  lt_ltn lt = number_said (dir_data dir) ->
  (forall n, In n (map fst (lt_points lt)) <-> In n (map p_code (d_points (dir_data dir)))) ->
  (forall n, In n (map fst (lt_roads lt)) <-> In n (map r_code (d_roads (dir_data dir)))) ->
  (forall id, In id (map fst (lt_names lt)) <-> In id (map n_id (d_names (dir_data dir)) ++ flat_map (adds_name (dir_data dir)) (d_points (dir_data dir)))) ->
  table_info dir (location_table_info lt).
Proof.
  intros lt dir H1 H2 H3 H4. rewrite info_dump. rewrite (distinct_nodup N.eqb N.eq_dec N.eqb_eq), (distinct_nodup N.eqb N.eq_dec N.eqb_eq), (distinct_nodup Z.eqb Z.eq_dec Z.eqb_eq).
  rewrite (count_same N.eq_dec _ _ H2), (count_same N.eq_dec _ _ H3), (count_same Z.eq_dec _ _ H4), H1.
  assert (FL : float_text_ok no_float) by (intros f; left; reflexivity).
  assert (SN : forall line p n, line_at p line = Some (value_of no_float (JN n)) -> says_n line p n).
  { intros line p n L. exists (dec_string n). split; [|apply dec_string_value]. unfold says. rewrite L. unfold JN. cbn [value_of]. rewrite dec_string_Z_of_N. reflexivity. }
  split; [|split; [|split; [|split]]]; [|apply SN; rewrite line_at_dump by exact FL; reflexivity ..].
  split; [|split].
  - eexists. rewrite read_dump by exact FL. split; [reflexivity|]. cbn. repeat constructor. intros [].
  - apply valid_is_utf8. apply dump_txt; [exact FL|reflexivity].
  - apply dump_no_control. exact FL.
Qed.

(* ---- directories ---- *)
Lemma directory_read : forall fe name dir, is_directory (fe_lines fe) (fe_iconv fe) name dir ->
  exists lt, loadLocationDatabase fe name = Ok lt /\ readLTN fe name = dir_number dir /\ table_info dir (location_table_info lt) /\
    db_ltn (location_database lt) = number_said (dir_data dir) /\
    (forall c, db_points (location_database lt) c = point_said (dir_data dir) c) /\ (forall c, db_roads (location_database lt) c = road_said (dir_data dir) c).
Proof.
  intros fe name dir ((numbers & T & En) & (es & m & conv & Lr & Me & Ic & DS) & K). unfold loadLocationDatabase. cbv zeta.
  change (fun s => fe_lines fe (name ++ bs s)) with (file_of fe name) in DS. change (fe_lines fe (name ++ bs "/README.DAT")) with (file_of fe name "/README.DAT") in Lr.
  change (fe_lines fe (name ++ bs "/LOCATIONDATASETS.DAT")) with (file_of fe name "/LOCATIONDATASETS.DAT") in T.
  rewrite (encoding_read _ _ _ Lr Me), Ic. eexists. split; [reflexivity|]. split; [rewrite (number_read _ _ _ T); symmetry; exact En|].
  destruct (tables_read _ _ _ DS K) as (R1 & R2 & R3 & R4 & R5 & R6). split; [apply info_says; assumption|]. auto.
Qed.
Lemma directories_read : forall fe names dirs, Forall2 (is_directory (fe_lines fe) (fe_iconv fe)) names dirs -> forall acc,
  exists dbs infos, load_directories fe names acc = Ok (dbs ++ acc, infos) /\ Forall2 table_info dirs infos /\
    Forall2 (fun dir db => fst db = dir_number dir /\ db_ltn (location_database (snd db)) = number_said (dir_data dir) /\
      (forall c, db_points (location_database (snd db)) c = point_said (dir_data dir) c) /\ (forall c, db_roads (location_database (snd db)) c = road_said (dir_data dir) c)) dirs (rev dbs).
Proof.
  intros fe names dirs F. induction F as [|name dir names dirs H F IH]; intros acc.
  - exists [], []. split; [reflexivity|]. split; constructor.
  - destruct (directory_read _ _ _ H) as (lt & L1 & L2 & L3 & L4). cbn [load_directories]. rewrite L1. cbn [bind]. destruct (IH ((readLTN fe name, lt) :: acc)) as (dbs & infos & I1 & I2 & I3). rewrite I1. cbn [bind].
    exists (dbs ++ [(readLTN fe name, lt)]), (location_table_info lt :: infos). split; [rewrite <- app_assoc; reflexivity|]. split; [constructor; assumption|].
    rewrite rev_app_distr. cbn [rev app]. constructor; [|exact I3]. cbn [fst snd]. auto.
Qed.
Lemma database_read : forall dirs dbs n,
  Forall2 (fun dir db => fst db = dir_number dir /\ db_ltn (location_database (snd db)) = number_said (dir_data dir) /\
      (forall c, db_points (location_database (snd db)) c = point_said (dir_data dir) c) /\ (forall c, db_roads (location_database (snd db)) c = road_said (dir_data dir) c)) dirs (rev dbs) ->
  database_is dirs n (match find_code n dbs with Some lt => location_database lt | None => LocationDatabase_default end).
Proof.
  intros dirs dbs n F. unfold database_is, last_with. assert (G : Forall2 (fun dir db => fst db = dir_number dir /\ db_ltn (location_database (snd db)) = number_said (dir_data dir) /\
      (forall c, db_points (location_database (snd db)) c = point_said (dir_data dir) c) /\ (forall c, db_roads (location_database (snd db)) c = road_said (dir_data dir) c)) (rev dirs) dbs).
  { rewrite <- (rev_involutive dbs). clear -F. induction F as [|a b l l' H F IH]; [constructor|]. cbn [rev]. apply Forall2_app; [exact IH|constructor; [exact H|constructor]]. }
  clear F. induction G as [|dir [k lt] ds dbs (H1 & H2) G IH]; [cbn; auto|]. cbn [find find_code fst snd] in *. rewrite H1, (N.eqb_sym n). destruct (dir_number dir =? n); [exact H2|exact IH].
Qed.

(* ---- the program ---- *)
Lemma program_loads : forall (D : Type) events suppl supplementary fe fuel (w : World D) ops extra o dirs, Forall known ops ->
  getOptions (w_numbers w) ops extra = Ok o -> o_early_exit o = false -> makes_channel (w_snd w) o = true ->
  load_supplementary (readCSV suppl semicolon) [] = Ok supplementary ->
  Forall2 (is_directory (fe_lines fe) (fe_iconv fe)) (o_loctable_dirs o) dirs ->
  exists data infos, Forall2 table_info dirs infos /\ (forall n, database_is dirs n (td_locdb data n)) /\
    (forall keys k, key_file (fe_lines fe (bs "service_key_table.csv")) keys -> td_key data k = first_for k keys) /\
    (forall c, td_event data c = find_code c (loadEvents events)) /\ (forall c, td_suppl data c = find_code c supplementary) /\
    program events suppl fe fuel w ops extra =
      (r <- main fuel (with_tables w data) ops extra ;;
       Ok (match r with Some (code, out) => Some (code, map TableInfo infos ++ map Item out) | None => None end)).
Proof.
  intros D events suppl supplementary fe fuel w ops extra o dirs Kn G Ex Mc Sp F. destruct (directories_read fe _ _ F []) as (dbs & infos & L1 & L2 & L3). rewrite app_nil_r in L1.
  unfold program. rewrite G, Ex, Mc. cbn [orb negb]. rewrite L1. cbn [bind]. unfold tmc_tables. rewrite Sp. cbn [bind].
  match goal with |- context [with_tables w ?d] => exists d end. exists infos. split; [exact L2|]. cbn [td_locdb td_key td_event td_suppl].
  split; [intros n; apply database_read; exact L3|]. split; [intros keys k K; apply key_table; exact K|]. split; [reflexivity|]. split; [reflexivity|].
  assert (PU : o_print_usage o = false /\ o_print_version o = false).
  { destruct (getOptions_all (w_numbers w) ops extra Kn) as [(_ & _ & o' & E' & M)|(_ & m & E')]; rewrite G in E'; [|discriminate]. injection E' as <-. destruct M. split; apply not_true_is_false; intros X.
    - assert (Y : o_early_exit o = true) by (apply m_stop; apply m_usage in X; tauto). congruence.
    - assert (Y : o_early_exit o = true) by (apply m_stop; apply m_version in X; tauto). congruence. }
  destruct PU as (-> & ->). cbn [N.add N.to_nat firstn skipn map app]. reflexivity.
Qed.
(* shows_place only reads the points and roads of the database *)
Lemma along_same : forall pts pts' next c l, (forall n, pts n = pts' n) -> along pts next c l -> along pts' next c l.
Proof. intros pts pts' next c l H A. induction A; [constructor|constructor; [rewrite <- H; assumption|assumption]]. Qed.
Lemma place_same : forall fl line db db' ms, (forall c, db_points db c = db_points db' c) -> (forall c, db_roads db c = db_roads db' c) -> shows_place fl line db ms -> shows_place fl line db' ms.
Proof.
  intros fl line db db' ms H1 H2 S. unfold shows_place in *. rewrite <- H1. destruct (db_points db (ms_location ms)) as [p|]; [|exact S].
  destruct S as (points & S1 & S2 & S3 & S4 & S5). exists points. rewrite <- H1, <- H2. split; [exact S1|]. split; [exact (along_same _ _ _ _ _ H1 S2)|]. auto.
Qed.
