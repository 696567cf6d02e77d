(* The loaders of the tables for traffic messages read what the files say. *)
From Verif.Model Require Import Base Util Float Freq Tables Tmc Input Csv TmcFiles.
From Verif.Spec Require Import Inputs TableFiles.
From Verif.Proofs Require Import Tac FreqP InputP.
Local Open Scope string_scope.
Local Open Scope N_scope.
Local Open Scope list_scope.

(* ---- numbers ---- *)
Lemma dec_run_digits : forall ds acc n, Forall digit ds -> dec_run ds acc n = (fold_left (fun v c => 10 * v + (c - 48)) ds acc, n + N.of_nat (length ds)).
Proof.
  induction ds as [|c ds IH]; intros acc n F; [cbn; f_equal; lia|]. apply Forall_cons_iff in F. destruct F as (H & F). unfold digit in H.
  cbn [dec_run fold_left]. replace ((48 <=? c) && (c <=? 57)) with true by lia. rewrite IH by exact F. replace (acc * 10 + (c - 48)) with (10 * acc + (c - 48)) by lia.
  f_equal. cbn [length]. lia.
Qed.
Lemma space_not : forall c, 33 <= c -> isspace c = false. Proof. intros c H. unfold isspace. lia. Qed.
Lemma stoi_number : forall f z, number f z -> stoi f = Some z.
Proof.
  intros f z (sign & ds & -> & Ne & F & V & R & S). destruct ds as [|c ds]; [congruence|]. pose proof F as F0. apply Forall_cons_iff in F0. destruct F0 as (H & _). unfold digit in H.
  unfold stoi. cbv zeta. assert (Sk : skip_space (sign ++ c :: ds) = sign ++ c :: ds).
  { destruct (z <? 0)%Z; [rewrite S|destruct S as [S|S]; rewrite S]; cbn [app bs skip_space]; rewrite space_not by (cbn; lia); reflexivity. }
  rewrite Sk. clear Sk.
  match goal with |- (let (_, _) := ?m in _) = _ => assert (P : exists neg, m = (neg, c :: ds) /\ (if neg : bool then (z <= 0)%Z else (0 <= z)%Z)) end.
  { destruct (z <? 0)%Z eqn:Ez; [rewrite S; exists true; split; [reflexivity|lia]|]. exists false. split; [|lia].
    destruct S as [S|S]; rewrite S; [|reflexivity]. cbn [app].
    destruct (N.eq_dec c 45) as [X|X]; [lia|]. destruct (N.eq_dec c 43) as [Y|Y]; [lia|]. destruct c as [|p]; [reflexivity|].
    repeat (destruct p as [p|p|]; try reflexivity; try (exfalso; lia)). }
  destruct P as (neg & -> & Hz). rewrite (dec_run_digits _ 0 0 F). cbn [fst snd]. cbn [length]. replace (0 + N.of_nat (Datatypes.S (length ds)) =? 0) with false by lia.
  unfold digits_value in V. rewrite <- V. destruct neg.
  - replace (- Z.of_N (Z.abs_N z))%Z with z by lia. replace ((- 2147483648 <=? z)%Z && (z <=? 2147483647)%Z) with true by lia. reflexivity.
  - replace (Z.of_N (Z.abs_N z))%Z with z by lia. replace ((- 2147483648 <=? z)%Z && (z <=? 2147483647)%Z) with true by lia. reflexivity.
Qed.
Lemma stoi_none : forall f, no_number f -> stoi f = None.
Proof.
  intros [|c f] H; [reflexivity|]. cbn [no_number] in H. unfold digit in H. destruct H as (H1 & H2 & H3 & H4 & H5). unfold stoi. cbv zeta. cbn [skip_space].
  replace (isspace c) with false by (unfold isspace; lia).
  match goal with |- (let (_, _) := ?m in _) = _ => assert (P : m = (false, c :: f)) end.
  { destruct c as [|p]; [reflexivity|]. repeat (destruct p as [p|p|]; try reflexivity; try (exfalso; lia)). }
  rewrite P. cbn [dec_run]. replace ((48 <=? c) && (c <=? 57)) with false by lia. reflexivity.
Qed.
Lemma u16_code : forall n, n < 65536 -> z_u16 (Z.of_N n) = n.
Proof. intros n H. unfold z_u16. rewrite Z.mod_small by lia. lia. Qed.

(* ---- lines ---- *)
Lemma line_fields : forall d fields line, d <> 10 -> d <> 13 -> line_of d fields line -> row_all (CSVRow_new line d) = fields.
Proof.
  intros d fields line D1 D2 ([->| ->] & F & N1 & N2).
  - rewrite <- (app_nil_r (separated d fields)). apply csv_split; auto.
  - apply csv_split; auto. right. exists 13, []. split; [reflexivity|]. split; [left; reflexivity|intros []].
Qed.
Lemma row_at_all : forall r i, row_at r i = nth_error (row_all r) (N.to_nat i).
Proof.
  intros r i. unfold row_at, row_all. rewrite nth_error_map. destruct (nth_error (row_fields r) (N.to_nat i)) as [[off len]|]; reflexivity.
Qed.
Lemma row_length : forall r, length (row_fields r) = length (row_all r). Proof. intros r. unfold row_all. rewrite map_length. reflexivity. Qed.
Lemma blank_row : forall d line, d <> 10 -> d <> 13 -> blank line -> row_fields (CSVRow_new line d) = [].
Proof. intros d line D1 D2 [->| ->]; reflexivity. Qed.
Lemma blank_at : forall d line i, d <> 10 -> d <> 13 -> blank line -> row_at (CSVRow_new line d) i = None.
Proof. intros d line i D1 D2 B. unfold row_at. rewrite blank_row by assumption. destruct (N.to_nat i); reflexivity. Qed.

(* ---- keys ---- *)
Lemma find_app : forall {A} n (l1 l2 : list (N * A)), find_code n (l1 ++ l2) = match find_code n l1 with Some a => Some a | None => find_code n l2 end.
Proof. intros A n l1 l2. induction l1 as [|[k v] l1 IH]; [reflexivity|]. cbn [app find_code]. destruct (n =? k); [reflexivity|exact IH]. Qed.
Lemma keys_are : forall lines keys, key_file lines keys -> forall acc n, find_code n (keys_loop (readCSV lines comma) acc) =
  match find_code n acc with Some k => Some k | None => first_for n keys end.
Proof.
  intros lines keys K. induction K as [|l [id key] ls es E K IH|l ls es E K IH]; intros acc n.
  - cbn. destruct (find_code n acc); reflexivity.
  - destruct E as (f0 & f1 & f2 & f3 & more & L & N0 & N1 & N2 & N3 & B0 & B1 & B2 & B3). cbn [fst snd] in *.
    unfold readCSV. cbn [map keys_loop]. fold (readCSV ls comma). pose proof (line_fields 44 _ _ ltac:(lia) ltac:(lia) L) as Fs.
    rewrite row_length. unfold comma at 1. rewrite Fs. cbn [length]. replace (N.of_nat (S (S (S (S (length more))))) <? 4) with false by lia.
    unfold comma at 1 2 3 4. rewrite !row_at_all, Fs. change (N.to_nat 0) with 0%nat. change (N.to_nat 1) with 1%nat. change (N.to_nat 2) with 2%nat. change (N.to_nat 3) with 3%nat. cbn [nth_error obind].
    rewrite (stoi_number _ _ N0), (stoi_number _ _ N1), (stoi_number _ _ N2), (stoi_number _ _ N3). cbn [obind]. cbv zeta.
    rewrite (u16_code id B0). rewrite !Z.mod_small by lia. rewrite !N2Z.id. replace (mkServiceKey (key_xorval key) (key_xorstart key) (key_nrot key)) with key by (destruct key; reflexivity).
    rewrite IH. unfold first_for. cbn [find fst snd].
    destruct (find_code id acc) eqn:Ei.
    + destruct (N.eqb_spec id n) as [->|X]; [rewrite Ei; reflexivity|reflexivity].
    + rewrite find_app. cbn [find_code]. destruct (find_code n acc) eqn:En; [reflexivity|]. rewrite (N.eqb_sym n id). destruct (id =? n); reflexivity.
  - rewrite <- IH. unfold readCSV at 1. cbn [map keys_loop]. fold (readCSV ls comma). destruct E as [B|(fs & L & H)].
    + unfold comma at 1. rewrite blank_row by (lia || exact B). reflexivity.
    + pose proof (line_fields 44 _ _ ltac:(lia) ltac:(lia) L) as Fs. rewrite row_length. unfold comma at 1. rewrite Fs.
      destruct (N.of_nat (length fs) <? 4) eqn:E4; [reflexivity|]. destruct H as [H|H]; [lia|].
      unfold comma at 1 2 3 4. rewrite !row_at_all, Fs. change (N.to_nat 0) with 0%nat. change (N.to_nat 1) with 1%nat. change (N.to_nat 2) with 2%nat. change (N.to_nat 3) with 3%nat.
      destruct fs as [|f0 [|f1 [|f2 [|f3 more]]]]; try (cbn in E4; lia). cbn [nth_error obind firstn] in *.
      assert (X : stoi f0 = None \/ stoi f1 = None \/ stoi f2 = None \/ stoi f3 = None).
      { apply Exists_exists in H. destruct H as (f & I & Hf). apply stoi_none in Hf. cbn [In] in I. destruct I as [<-|[<-|[<-|[<-|[]]]]]; auto. }
      destruct (stoi f0); cbn [obind]; [|reflexivity]. destruct (stoi f1); cbn [obind]; [|reflexivity]. destruct (stoi f2); cbn [obind]; [|reflexivity].
      destruct (stoi f3); cbn [obind]; [|reflexivity]. destruct X as [X|[X|[X|X]]]; discriminate.
Qed.
Lemma key_table : forall lines keys n, key_file lines keys -> find_code n (loadServiceKeyTable lines) = first_for n keys.
Proof. intros lines keys n K. unfold loadServiceKeyTable. rewrite (keys_are _ _ K). reflexivity. Qed.

(* ---- tables with titles ---- *)
Lemma title_before : forall t after i acc, ~ In t after -> title_index after t i acc = acc.
Proof.
  intros t after. induction after as [|x after IH]; intros i acc H; [reflexivity|]. cbn [title_index].
  replace (bytes_eqb x t) with false; [apply IH; intros X; apply H; right; exact X|]. symmetry. apply not_true_is_false. intros X. apply bytes_eqb_eq in X. apply H. left. exact X.
Qed.
Lemma title_at : forall t before after i acc, ~ In t after -> title_index (before ++ t :: after) t i acc = Some (i + N.of_nat (length before)).
Proof.
  intros t before. induction before as [|x before IH]; intros after i acc H; cbn [app title_index length].
  - rewrite (proj2 (bytes_eqb_eq t t) eq_refl). rewrite title_before by exact H. f_equal. lia.
  - rewrite IH by exact H. f_equal. lia.
Qed.
Section Rows.
  Variables (titles : list bytes) (rows : list CSVRow).
  Let t := mkTable titles rows.
  Lemma cell_string : forall line title P, cell titles line title P -> exists v, P v /\ get_string t (CSVRow_new line semicolon) title = Some v.
  Proof.
    intros line title P (fields & v & L & (before & after & Et & Na & Nv) & Pv). exists v. split; [exact Pv|].
    unfold get_string, t. cbn [tb_titles]. rewrite Et, title_at by exact Na. rewrite row_at_all. unfold semicolon. rewrite (line_fields 59 _ _ ltac:(lia) ltac:(lia) L).
    rewrite N.add_0_l, Nat2N.id. exact Nv.
  Qed.
  Lemma blank_string : forall line title, blank line -> get_string t (CSVRow_new line semicolon) title = None.
  Proof. intros line title B. unfold get_string. destruct (title_index _ _ _ _); [|reflexivity]. apply blank_at; [unfold semicolon; lia|unfold semicolon; lia|exact B]. Qed.
  Lemma cell_int : forall line title z, cell titles line title (has_number z) -> get_int t (CSVRow_new line semicolon) title = Some z.
  Proof. intros line title z C. destruct (cell_string _ _ _ C) as (v & Pv & G). unfold get_int. rewrite G. apply stoi_number. exact Pv. Qed.
  Lemma cell_code : forall line title n, cell titles line title (has_code n) -> get_uint16 t (CSVRow_new line semicolon) title = Some n.
  Proof. intros line title z C. destruct (cell_string _ _ _ C) as (v & (Pv & R) & G). unfold get_uint16, get_int. rewrite G, (stoi_number _ _ Pv), u16_code by exact R. reflexivity. Qed.
  Lemma cell_text : forall line title s, cell titles line title (eq s) -> get_string t (CSVRow_new line semicolon) title = Some s.
  Proof. intros line title s C. destruct (cell_string _ _ _ C) as (v & Pv & G). rewrite Pv. exact G. Qed.
  Lemma number_some : forall f z, number f z -> exists c r, f = c :: r.
  Proof. intros f z (s & ds & -> & Ne & _). destruct s as [|c s]; [destruct ds as [|c ds]; [congruence|]|]; cbn; eauto. Qed.
  Lemma perhaps_int : forall line title z, cell titles line title (perhaps has_number z) ->
    optional_int t (CSVRow_new line semicolon) title = Some (match z with Some z => z | None => 0%Z end).
  Proof.
    intros line title z C. destruct (cell_string _ _ _ C) as (v & Pv & G). unfold optional_int, row_contains, get_int. rewrite G. destruct z as [z|]; cbn [perhaps] in Pv; [|rewrite Pv; reflexivity].
    destruct (number_some _ _ Pv) as (c & r & Ev). rewrite Ev. cbn [obind]. rewrite <- Ev. apply stoi_number. exact Pv.
  Qed.
  Lemma perhaps_code : forall line title n, cell titles line title (perhaps has_code n) ->
    exists z, optional_int t (CSVRow_new line semicolon) title = Some z /\ z_u16 z = match n with Some n => n | None => 0 end.
  Proof.
    intros line title n C. exists (match n with Some n => Z.of_N n | None => 0%Z end). destruct (cell_string _ _ _ C) as (v & Pv & _). split; [|destruct n; [apply u16_code; apply Pv|reflexivity]].
    assert (C' : cell titles line title (perhaps has_number (match n with Some n => Some (Z.of_N n) | None => None end))).
    { destruct C as (fs & x & C1 & C2 & C3). exists fs, x. split; [exact C1|]. split; [exact C2|]. destruct n; [apply C3|exact C3]. }
    rewrite (perhaps_int _ _ _ C'). destruct n; reflexivity.
  Qed.
  Lemma perhaps_coord : forall line title z, cell titles line title (perhaps has_number z) -> optional_coord t (CSVRow_new line semicolon) title = Some (degrees z).
  Proof.
    intros line title z C. destruct (cell_string _ _ _ C) as (v & Pv & G). unfold optional_coord, row_contains, get_int. rewrite G. destruct z as [z|]; cbn [perhaps] in Pv; [|rewrite Pv; reflexivity].
    destruct (number_some _ _ Pv) as (c & r & Ev). rewrite Ev. cbn [obind]. rewrite <- Ev, (stoi_number _ _ Pv). reflexivity.
  Qed.
End Rows.
Lemma table_rows : forall {A} row lines (es : list A), table row lines es -> exists titles rest,
  readCSVWithTitles lines semicolon = mkTable titles (map (fun l => CSVRow_new l semicolon) rest) /\ lines_are (row titles) blank rest es.
Proof.
  intros A row lines es (titles & first & rest & -> & L & R). exists titles, rest. split; [|exact R]. unfold readCSVWithTitles. unfold semicolon at 1. rewrite (line_fields 59 _ _ ltac:(lia) ltac:(lia) L). reflexivity.
Qed.
Lemma fold_lines : forall {A B} (entry : bytes -> A -> Prop) (f : B -> CSVRow -> B) (h : B -> A -> B),
  (forall l a b, entry l a -> f b (CSVRow_new l semicolon) = h b a) -> (forall l b, blank l -> f b (CSVRow_new l semicolon) = b) ->
  forall ls es, lines_are entry blank ls es -> forall b, fold_left f (map (fun l => CSVRow_new l semicolon) ls) b = fold_left h es b.
Proof.
  intros A B entry f h H1 H2 ls es L. induction L as [|l a ls es E L IH|l ls es E L IH]; intros b; [reflexivity| |]; cbn [map fold_left].
  - rewrite (H1 _ _ _ E). apply IH.
  - rewrite (H2 _ _ E). apply IH.
Qed.
Lemma fold_cons : forall {A B} (g : A -> B) es acc, fold_left (fun acc a => g a :: acc) es acc = rev (map g es) ++ acc.
Proof. intros A B g es. induction es as [|a es IH]; intros acc; [reflexivity|]. cbn [fold_left map rev]. rewrite IH, <- app_assoc. reflexivity. Qed.
Lemma find_last : forall {A B} (key : A -> N) (val : A -> B) n l,
  find_code n (rev (map (fun a => (key a, val a)) l)) = option_map val (last_with (fun a => key a =? n) l).
Proof.
  intros A B key val n l. unfold last_with. rewrite <- map_rev. induction (rev l) as [|a r IH]; [reflexivity|]. cbn [map find_code find fst snd].
  rewrite (N.eqb_sym n). destruct (key a =? n); [reflexivity|exact IH].
Qed.
Lemma find_last_Z : forall {A B} (key : A -> Z) (val : A -> B) n l,
  find_Z n (rev (map (fun a => (key a, val a)) l)) = option_map val (last_with (fun a => (key a =? n)%Z) l).
Proof.
  intros A B key val n l. unfold last_with. rewrite <- map_rev. induction (rev l) as [|a r IH]; [reflexivity|]. cbn [map find_Z find fst snd].
  rewrite (Z.eqb_sym n). destruct (key a =? n)%Z; [reflexivity|exact IH].
Qed.

Lemma names_read : forall conv lines es, table (is_name conv) lines es ->
  load_names conv (readCSVWithTitles lines semicolon) = rev (map (fun r => (n_id r, n_text r)) es).
Proof.
  intros conv lines es T. destruct (table_rows _ _ _ T) as (titles & rest & E & L). rewrite E. unfold load_names. cbn [tb_rows].
  rewrite (fold_lines (is_name conv titles) _ (fun acc r => (n_id r, n_text r) :: acc)) with (es := es); [rewrite fold_cons, app_nil_r; reflexivity| | |exact L].
  - intros l a b (C1 & _ & C2). rewrite (cell_int _ _ _ _ _ C1). destruct (cell_string titles (map (fun l => CSVRow_new l semicolon) rest) _ _ _ C2) as (v & Pv & G). cbn [obind]. rewrite G. cbn [obind]. rewrite Pv. reflexivity.
  - intros l b B. unfold get_int. rewrite blank_string by exact B. reflexivity.
Qed.
Lemma lines_forall : forall {A} entry ign ls (es : list A) (P : A -> Prop), lines_are entry ign ls es -> (forall l a, entry l a -> P a) -> Forall P es.
Proof. intros A entry ign ls es P L H. induction L; [constructor|constructor; eauto|assumption]. Qed.
Lemma last_none : forall {A} (test : A -> bool) l, Forall (fun a => test a = false) l -> last_with test l = None.
Proof. intros A test l F. unfold last_with. apply Forall_rev in F. induction F as [|a r H F IH]; [reflexivity|]. cbn [find]. rewrite H. exact IH. Qed.
Section Data.
  Variables (conv : bytes -> option bytes) (file : string -> list bytes) (d : location_data).
  Hypothesis DS : data_set conv file d.
  Let nm := rev (map (fun r => (n_id r, n_text r)) (d_names d)).
  Lemma name_read : forall id, name_or_empty nm (match id with Some z => z | None => 0%Z end) = name_said d id.
  Proof.
    intros id. unfold name_or_empty, nm. rewrite find_last_Z. unfold name_said. destruct id as [z|].
    - destruct (last_with _ _); reflexivity.
    - rewrite last_none; [reflexivity|]. destruct DS as (T & _). destruct (table_rows _ _ _ T) as (titles & rest & _ & L).
      apply (lines_forall _ _ _ _ _ L). intros l a (_ & H & _). lia.
  Qed.
  Definition road_entry (r : road_row) : Road := mkRoad (r_number r) (name_said d (r_name r)).
  Lemma roads_read : load_roads nm (readCSVWithTitles (file "/ROADS.DAT") semicolon) = rev (map (fun r => (r_code r, road_entry r)) (d_roads d)).
  Proof.
    destruct DS as (_ & T & _). destruct (table_rows _ _ _ T) as (titles & rest & E & L). rewrite E. unfold load_roads. cbn [tb_rows].
    rewrite (fold_lines (is_road titles) _ (fun acc r => (r_code r, road_entry r) :: acc)) with (es := d_roads d); [rewrite fold_cons, app_nil_r; reflexivity| | |exact L].
    - intros l a b (C1 & C2 & C3). rewrite (cell_code _ _ _ _ _ C1). cbn [obind]. rewrite (cell_text _ _ _ _ _ C2). cbn [obind]. rewrite (perhaps_int _ _ _ _ _ C3). cbn [obind]. rewrite name_read. reflexivity.
    - intros l b B. unfold get_uint16, get_int. rewrite blank_string by exact B. reflexivity.
  Qed.
  Let sg := rev (map (fun r => (s_code r, s_road r)) (d_segments d)).
  Lemma segments_read : load_segments (readCSVWithTitles (file "/SEGMENTS.DAT") semicolon) = sg.
  Proof.
    destruct DS as (_ & _ & T & _). destruct (table_rows _ _ _ T) as (titles & rest & E & L). rewrite E. unfold load_segments. cbn [tb_rows].
    rewrite (fold_lines (is_segment titles) _ (fun acc r => (s_code r, s_road r) :: acc)) with (es := d_segments d); [rewrite fold_cons, app_nil_r; reflexivity| | |exact L].
    - intros l a b (C1 & _ & C2). rewrite (cell_code _ _ _ _ _ C1). cbn [obind]. rewrite (cell_code _ _ _ _ _ C2). reflexivity.
    - intros l b B. unfold get_uint16, get_int. rewrite blank_string by exact B. reflexivity.
  Qed.
  Lemma segment_read : forall s, find_code (match s with Some s => s | None => 0 end) sg = segment_said d s.
  Proof.
    intros s. unfold sg. rewrite find_last. unfold segment_said. destruct s as [s|]; [reflexivity|]. rewrite last_none; [reflexivity|].
    destruct DS as (_ & _ & T & _). destruct (table_rows _ _ _ T) as (titles & rest & _ & L). apply (lines_forall _ _ _ _ _ L). intros l a (_ & H & _). lia.
  Qed.
  Let rd := rev (map (fun r => (r_code r, road_entry r)) (d_roads d)).
  Lemma road_read : forall n, find_code n rd = road_said d n.
  Proof. intros n. unfold rd. rewrite find_last. unfold road_said, road_entry. destruct (last_with _ _); reflexivity. Qed.
  (* the tables while the points are read *)
  Definition reading (lt : LocationTables) : Prop := lt_roads lt = rd /\ lt_segments lt = sg /\ forall id, name_or_empty (lt_names lt) id = name_or_empty nm id.
  Definition point_entry (p : point_row) : Point :=
    mkPoint (name_said d (p_name p)) (name_said d (p_road_name p)) (road_of d p) 0 0 (degrees (p_x p)) (degrees (p_y p)).
  Lemma touch_names : forall names touched id, name_or_empty (names_touch names touched) id = name_or_empty names id.
  Proof.
    intros names [i|] id; [|reflexivity]. unfold names_touch. destruct (find_Z i names) eqn:E; [reflexivity|]. unfold name_or_empty. cbn [find_Z].
    destruct (Z.eqb_spec id i) as [->|]; [rewrite E; reflexivity|reflexivity].
  Qed.
  Lemma find_in : forall (l : list (Z * bytes)) i v, find_Z i l = Some v -> In i (map fst l).
  Proof. induction l as [|[k x] l IH]; intros i v; cbn [find_Z map fst]; [discriminate|]. destruct (Z.eqb_spec i k) as [->|]; [left; reflexivity|]. intros X. right. exact (IH _ _ X). Qed.
  Lemma touch_ids : forall names touched id, In id (map fst (names_touch names touched)) <-> In id (map fst names) \/ touched = Some id.
  Proof.
    intros names [i|] id; cbn [names_touch]; [|split; [auto|intros [X|X]; [exact X|discriminate]]].
    destruct (find_Z i names) eqn:E; [|cbn [map fst In]; split; [intros [->|X]; auto|intros [X|X]; [auto|injection X as ->; auto]]].
    split; [auto|]. intros [X|X]; [exact X|]. injection X as <-. exact (find_in _ _ _ E).
  Qed.
  Lemma point_read : forall titles rows lt line p, reading lt -> is_point titles line p ->
    (p_road p = None -> match segment_said d (p_segment p) with Some r => road_said d r <> None | None => True end) ->
    point_of_row lt (mkTable titles rows) (CSVRow_new line semicolon) = Some (p_code p, point_entry p, hd_error (adds_name d p)).
  Proof.
    intros titles rows lt line p (R1 & R2 & R3) (C1 & C2 & C3 & C4 & C5 & C6 & Nr & C7 & C8) K. unfold point_of_row.
    rewrite (cell_code _ _ _ _ _ C2). cbn [obind]. rewrite (perhaps_int _ _ _ _ _ C3). cbn [obind]. rewrite (perhaps_coord _ _ _ _ _ C4). cbn [obind]. rewrite (perhaps_coord _ _ _ _ _ C5). cbn [obind].
    destruct (perhaps_code titles rows _ _ _ C6) as (z6 & -> & U6). cbn [obind]. destruct (perhaps_code titles rows _ _ _ C7) as (z7 & -> & U7). cbn [obind].
    rewrite (perhaps_int _ _ _ _ _ C8). cbn [obind]. cbv zeta. rewrite U6, U7, R1, R2, !R3, !name_read, segment_read. unfold point_entry, road_of, adds_name.
    destruct (p_road p) as [r|].
    - replace (r =? 0) with false by (destruct (N.eqb_spec r 0); congruence). cbn [obind fst snd]. reflexivity.
    - cbn [N.eqb]. specialize (K eq_refl). destruct (segment_said d (p_segment p)) as [r|]; cbn [obind fst snd]; [|reflexivity].
      rewrite road_read. destruct (road_said d r); [|congruence]. cbn [obind fst snd]. reflexivity.
  Qed.
  Lemma points_read : forall titles rows, forall ls ps, lines_are (is_point titles) blank ls ps ->
    Forall (fun p => p_road p = None -> match segment_said d (p_segment p) with Some r => road_said d r <> None | None => True end) ps ->
    forall lt, reading lt ->
    let lt' := fold_left (fun lt row =>
      match get_uint16 (mkTable titles rows) row "TABCD" with
      | None => lt
      | Some ltn =>
          let lt := mkLT ltn (lt_names lt) (lt_roads lt) (lt_segments lt) (lt_points lt) in
          match point_of_row lt (mkTable titles rows) row with
          | Some (lcd, p, touched) =>
              mkLT ltn (names_touch (lt_names lt) touched) (lt_roads lt) (lt_segments lt) ((lcd, p) :: lt_points lt)
          | None => lt
          end
      end) (map (fun l => CSVRow_new l semicolon) ls) lt in
    reading lt' /\ lt_points lt' = rev (map (fun p => (p_code p, point_entry p)) ps) ++ lt_points lt /\
    lt_ltn lt' = match rev ps with p :: _ => p_table p | [] => lt_ltn lt end /\
    (forall id, In id (map fst (lt_names lt')) <-> In id (map fst (lt_names lt)) \/ In id (flat_map (adds_name d) ps)).
  Proof.
    intros titles rows ls ps L. induction L as [|l p ls ps E L IH|l ls ps E L IH]; intros K lt R; cbv zeta.
    - cbn. split; [exact R|]. split; [reflexivity|]. split; [reflexivity|]. intros id. tauto.
    - apply Forall_cons_iff in K. destruct K as (Kp & K). cbn [map fold_left].
      pose proof E as (C1 & _). rewrite (cell_code _ _ _ _ _ C1). cbv zeta.
      set (lt1 := mkLT (p_table p) (lt_names lt) (lt_roads lt) (lt_segments lt) (lt_points lt)).
      rewrite (point_read titles rows lt1 l p R E Kp). cbv zeta in IH.
      match goal with |- context [fold_left ?f ?rr ?b] => destruct (IH K b) as (I1 & I2 & I3 & I4) end.
      { destruct R as (R1 & R2 & R3). split; [exact R1|]. split; [exact R2|]. intros id. cbn [lt_names lt1]. rewrite touch_names. apply R3. }
      split; [exact I1|]. split; [rewrite I2; cbn [lt_points lt1 map rev]; rewrite <- app_assoc; reflexivity|].
      split; [rewrite I3; cbn [rev lt_ltn]; destruct (rev ps); reflexivity|].
      intros id. rewrite I4. cbn [lt_names lt1 flat_map]. rewrite in_app_iff, touch_ids.
      assert (X : In id (adds_name d p) <-> hd_error (adds_name d p) = Some id).
      { unfold adds_name. destruct (p_road p); [split; [intros []|discriminate]|]. destruct (segment_said d (p_segment p)); [|split; [intros []|discriminate]].
        cbn [In hd_error]. split; [intros [->|[]]; reflexivity|intros X; injection X as ->; left; reflexivity]. }
      rewrite X. tauto.
    - cbn [map fold_left]. assert (G : get_uint16 (mkTable titles rows) (CSVRow_new l semicolon) "TABCD" = None) by (unfold get_uint16, get_int; rewrite blank_string by exact E; reflexivity).
      rewrite G. exact (IH K lt R).
  Qed.
  Definition with_offsets (p : Point) (o : option offset_row) : Point :=
    match o with Some o => mkPoint (pt_name1 p) (pt_road_name p) (pt_roa_lcd p) (o_negative o) (o_positive o) (pt_lon p) (pt_lat p) | None => p end.
  Lemma code_in : forall {A} (l : list (N * A)) i v, find_code i l = Some v -> In i (map fst l).
  Proof. intros A. induction l as [|[k x] l IH]; intros i v; cbn [find_code map fst]; [discriminate|]. destruct (N.eqb_spec i k) as [->|]; [left; reflexivity|]. intros X. right. exact (IH _ _ X). Qed.
  Lemma offsets_read : forall titles rows ls os, lines_are (is_offset titles) blank ls os -> forall lt,
    let lt' := fold_left (fun lt row =>
      match (lcd <~ get_uint16 (mkTable titles rows) row "LCD" ;; neg <~ get_uint16 (mkTable titles rows) row "NEG_OFF_LCD" ;;
             pos <~ get_uint16 (mkTable titles rows) row "POS_OFF_LCD" ;; Some (lcd, neg, pos)) with
      | Some (lcd, neg, pos) =>
          match find_code lcd (lt_points lt) with
          | Some p => mkLT (lt_ltn lt) (lt_names lt) (lt_roads lt) (lt_segments lt)
                        ((lcd, mkPoint (pt_name1 p) (pt_road_name p) (pt_roa_lcd p) neg pos
                                 (pt_lon p) (pt_lat p)) :: lt_points lt)
          | None => lt
          end
      | None => lt
      end) (map (fun l => CSVRow_new l semicolon) ls) lt in
    lt_ltn lt' = lt_ltn lt /\ lt_roads lt' = lt_roads lt /\ lt_names lt' = lt_names lt /\
    (forall n, In n (map fst (lt_points lt')) <-> In n (map fst (lt_points lt))) /\
    forall n, find_code n (lt_points lt') = option_map (fun p => with_offsets p (last_with (fun o => o_code o =? n) os)) (find_code n (lt_points lt)).
  Proof.
    intros titles rows ls os L. induction L as [|l o ls os E L IH|l ls os E L IH]; intros lt; cbv zeta.
    - split; [reflexivity|]. split; [reflexivity|]. split; [reflexivity|]. split; [reflexivity|]. intros n. cbn. destruct (find_code n (lt_points lt)); reflexivity.
    - cbn [map fold_left]. destruct E as (C1 & C2 & C3). rewrite (cell_code _ _ _ _ _ C1). cbn [obind]. rewrite (cell_code _ _ _ _ _ C2). cbn [obind]. rewrite (cell_code _ _ _ _ _ C3). cbn [obind].
      match goal with |- context [fold_left ?f ?rr ?b] => destruct (IH b) as (I1 & I2 & I4 & I5 & I3) end.
      rewrite I1, I2, I4. do 3 (split; [destruct (find_code (o_code o) (lt_points lt)); reflexivity|]).
      split. { intros n. rewrite I5. destruct (find_code (o_code o) (lt_points lt)) eqn:Ep; [|reflexivity]. cbn [lt_points map fst In]. split; [intros [<-|X]; [exact (code_in _ _ _ Ep)|exact X]|auto]. }
      intros n. rewrite I3. unfold last_with. cbn [rev]. clear.
      assert (F : forall l, find (fun o => o_code o =? n) (l ++ [o]) = match find (fun o => o_code o =? n) l with Some x => Some x | None => if o_code o =? n then Some o else None end).
      { induction l as [|a l IH]; cbn [app find]; [reflexivity|]. destruct (o_code a =? n); [reflexivity|exact IH]. }
      rewrite F. clear F. destruct (find_code (o_code o) (lt_points lt)) as [p|] eqn:Ep.
      + cbn [lt_points find_code]. destruct (N.eqb_spec n (o_code o)) as [X|X].
        * subst n. rewrite Ep, N.eqb_refl. cbn [option_map]. destruct (find _ (rev os)); reflexivity.
        * replace (o_code o =? n) with false by lia. destruct (find _ (rev os)); reflexivity.
      + destruct (N.eqb_spec (o_code o) n) as [X|X]; [subst n; rewrite Ep; reflexivity|]. destruct (find _ (rev os)); reflexivity.
    - cbn [map fold_left]. assert (G : get_uint16 (mkTable titles rows) (CSVRow_new l semicolon) "LCD" = None) by (unfold get_uint16, get_int; rewrite blank_string by exact E; reflexivity).
      rewrite G. cbn [obind]. exact (IH lt).
  Qed.
  Lemma tables_read : roads_known d ->
    let lt := loadLocationTables conv (file "/NAMES.DAT") (file "/ROADS.DAT") (file "/SEGMENTS.DAT") (file "/POINTS.DAT") (file "/POFFSETS.DAT") in
    let db := location_database lt in
    db_ltn db = number_said d /\ (forall n, db_points db n = point_said d n) /\ (forall n, db_roads db n = road_said d n) /\
    (forall n, In n (map fst (lt_points lt)) <-> In n (map p_code (d_points d))) /\
    (forall n, In n (map fst (lt_roads lt)) <-> In n (map r_code (d_roads d))) /\
    (forall id, In id (map fst (lt_names lt)) <-> In id (map n_id (d_names d) ++ flat_map (adds_name d) (d_points d))).
  Proof.
    intros K. cbv zeta. pose proof DS as (T1 & _ & _ & T4 & T5). destruct (table_rows _ _ _ T4) as (titles & rest & E4 & L4). destruct (table_rows _ _ _ T5) as (titles5 & rest5 & E5 & L5).
    unfold loadLocationTables, location_database. cbn [db_ltn db_points db_roads]. cbv zeta. rewrite (names_read _ _ _ T1). fold nm. rewrite roads_read, segments_read. fold rd.
    rewrite E4, E5. unfold load_points. cbn [tb_rows].
    destruct (points_read titles (map (fun l => CSVRow_new l semicolon) rest) rest (d_points d) L4 K (mkLT 0 nm rd sg []) ltac:(repeat split; intros; reflexivity)) as (P1 & P2 & P3 & P4).
    match type of P3 with lt_ltn ?x = _ => set (lt1 := x) in * end. clearbody lt1. unfold load_offsets. cbn [tb_rows].
    destruct (offsets_read titles5 (map (fun l => CSVRow_new l semicolon) rest5) rest5 (d_offsets d) L5 lt1) as (O1 & O2 & O4 & O5 & O3). cbv zeta in O1, O2, O3, O4, O5. rewrite O1, O2, O4.
    split; [rewrite P3; unfold number_said; destruct (rev (d_points d)); reflexivity|]. split; [|split; [|split; [|split]]].
    - intros n. rewrite O3, P2. cbn [lt_points]. rewrite app_nil_r, find_last. unfold point_said. destruct (last_with _ (d_points d)) as [p|]; [|reflexivity]. cbn [option_map].
      destruct (last_with _ (d_offsets d)); reflexivity.
    - intros n. destruct P1 as (-> & _). apply road_read.
    - intros n. rewrite O5, P2. cbn [lt_points]. rewrite app_nil_r, map_rev, <- in_rev, map_map. reflexivity.
    - intros n. destruct P1 as (-> & _). unfold rd. rewrite map_rev, <- in_rev, map_map. reflexivity.
    - intros n. rewrite P4. cbn [lt_names]. unfold nm. rewrite map_rev, <- in_rev, map_map, in_app_iff. reflexivity.
  Qed.
End Data.

(* ---- counts ---- *)
Lemma distinct_nodup : forall {A} (eqb : A -> A -> bool) (dec : forall x y : A, {x = y} + {x <> y}), (forall x y, eqb x y = true <-> x = y) ->
  forall l, distinct eqb l = count dec l.
Proof.
  intros A eqb dec H l. unfold count. induction l as [|x l IH]; [reflexivity|]. cbn [distinct nodup]. rewrite IH.
  destruct (in_dec dec x l) as [I|I].
  - replace (existsb (eqb x) l) with true; [lia|]. symmetry. apply existsb_exists. exists x. split; [exact I|]. apply H. reflexivity.
  - replace (existsb (eqb x) l) with false; [cbn [length]; lia|]. symmetry. apply not_true_is_false. intros X. apply existsb_exists in X. destruct X as (y & Iy & Ey). apply H in Ey. subst y. contradiction.
Qed.
Lemma count_same : forall {A} (dec : forall x y : A, {x = y} + {x <> y}) l1 l2, (forall x, In x l1 <-> In x l2) -> count dec l1 = count dec l2.
Proof.
  intros A dec l1 l2 H. unfold count. f_equal. apply Nat.le_antisymm; apply NoDup_incl_length; try apply NoDup_nodup; intros x I; apply nodup_In; apply nodup_In in I; apply H; exact I.
Qed.
