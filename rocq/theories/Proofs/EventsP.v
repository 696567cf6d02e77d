(* The list of events and of supplementary texts; checks by computation that lines are as specified. *)
From Verif.Model Require Import Base Util Float Tables Json Tmc Csv TmcFiles.
From Verif.Spec Require Import Session Inputs Labels TableFiles.
From Verif.Proofs Require Import Tac FreqP InputP TableFilesP.
Local Open Scope string_scope.
Local Open Scope N_scope.
Local Open Scope list_scope.

Lemma quantity_is : forall q, (if (0 <=? q)%Z && (q <=? 12)%Z then quantifier_of_int q else QSmallNumber) = quantity_kind (Some q).
Proof.
  intros q. destruct ((0 <=? q)%Z && (q <=? 12)%Z) eqn:E.
  - assert (H : In q [0; 1; 2; 3; 4; 5; 6; 7; 8; 9; 10; 11; 12]%Z) by (cbn [In]; lia). cbn [In] in H. repeat (destruct H as [<-|H]; [reflexivity|]). destruct H.
  - destruct q as [|p|p]; [discriminate|cbn; repeat (destruct p as [p|p|]; try reflexivity; try discriminate)|reflexivity].
Qed.
Lemma directions_is : forall d, (if (d =? 2)%Z then DBoth else DSingle) = match d with 2%Z => DBoth | _ => DSingle end.
Proof. intros d. destruct d as [|p|p]; [reflexivity|cbn; repeat (destruct p as [p|p|]; try reflexivity)|reflexivity]. Qed.
Lemma events_read : forall lines rows c, table is_event lines rows -> find_code c (loadEvents lines) = event_said rows c.
Proof.
  intros lines rows c T. destruct (table_rows _ _ _ T) as (titles & rest & E & L). unfold loadEvents. rewrite E. cbn [tb_rows]. unfold event_said.
  rewrite <- (find_last e_code event_of), <- (app_nil_r (rev _)), <- (fold_cons (fun a => (e_code a, event_of a))). f_equal.
  apply (fold_lines (is_event titles)) with (es := rows); [| |exact L].
  - intros l r b (C1 & C2 & C3 & C4 & C5 & C6 & C7 & C8 & C9). unfold event_of_row.
    pose proof (cell_string titles (map (fun l => CSVRow_new l semicolon) rest)) as CS.
    destruct (CS _ _ _ C4) as (v4 & _ & G4). destruct (CS _ _ _ C7) as (v7 & _ & G7). destruct (CS _ _ _ C5) as (v5 & P5 & G5). destruct (CS _ _ _ C8) as (v8 & P8 & G8). clear CS.
    rewrite (cell_code _ _ _ _ _ C1). cbn [obind]. rewrite (cell_text _ _ _ _ _ C2). cbn [obind]. rewrite (cell_text _ _ _ _ _ C3). cbn [obind]. rewrite G4. cbn [obind].
    unfold row_contains. rewrite G5.
    assert (Q : (has_q <~ match v5 with [] => Some false | _ :: _ => Some true end ;; (if has_q : bool then q <~ get_int (mkTable titles (map (fun l => CSVRow_new l semicolon) rest)) (CSVRow_new l semicolon) "Q" ;;
       Some (if (0 <=? q)%Z && (q <=? 12)%Z then quantifier_of_int q else QSmallNumber) else Some QSmallNumber)) = Some (quantity_kind (e_quantity r))).
    { unfold get_int. rewrite G5. destruct (e_quantity r) as [q|]; cbn [perhaps] in P5; [|rewrite P5; reflexivity]. destruct (number_some _ _ P5) as (x & y & Ev). rewrite Ev. cbn [obind]. rewrite <- Ev, (stoi_number _ _ P5). cbn [obind]. rewrite quantity_is. reflexivity. }
    assert (Dr : (has_d <~ match v8 with [] => Some false | _ :: _ => Some true end ;; (if has_d : bool then d <~ get_int (mkTable titles (map (fun l => CSVRow_new l semicolon) rest)) (CSVRow_new l semicolon) "D" ;;
       Some (if (d =? 2)%Z then DBoth else DSingle) else Some DSingle)) = Some (match e_directions r with Some 2%Z => DBoth | _ => DSingle end)).
    { unfold get_int. rewrite G8. destruct (e_directions r) as [q|]; cbn [perhaps] in P8; [|rewrite P8; reflexivity]. destruct (number_some _ _ P8) as (x & y & Ev). rewrite Ev. cbn [obind]. rewrite <- Ev, (stoi_number _ _ P8). cbn [obind]. rewrite directions_is. reflexivity. }
    rewrite G8.
    assert (X : forall (A B : Type) (a : option A) (f : A -> option B) (C : Type) (k : B -> option C) b, obind a f = Some b -> obind a (fun x => obind (f x) k) = k b).
    { intros A B a f C k b0 H. destruct a as [a|]; [|discriminate H]. cbn [obind] in H |- *. rewrite H. reflexivity. }
    rewrite (X _ _ _ _ _ _ _ Q). rewrite (cell_text _ _ _ _ _ C6). cbn [obind]. rewrite G7. cbn [obind]. rewrite (X _ _ _ _ _ _ _ Dr). rewrite (cell_code _ _ _ _ _ C9). reflexivity.
  - intros l b B. unfold event_of_row, get_uint16, get_int. rewrite blank_string by exact B. reflexivity.
Qed.

Lemma first_app : forall {A} (n : N) (l : list (N * A)) e, first_for n (l ++ [e]) = match first_for n l with Some a => Some a | None => first_for n [e] end.
Proof. intros A n l e. unfold first_for. induction l as [|x l IH]; [reflexivity|]. cbn [app find]. destruct (fst x =? n); [reflexivity|exact IH]. Qed.
Lemma find_first : forall {A} n (l : list (N * A)), find_code n l = first_for n l.
Proof. intros A n l. unfold first_for. induction l as [|[k a] l IH]; [reflexivity|]. cbn [find_code find fst snd]. rewrite (N.eqb_sym n). destruct (k =? n); [reflexivity|exact IH]. Qed.
Lemma suppl_read : forall lines es, lines_are suppl_line no_suppl_line lines es ->
  exists l, load_supplementary (readCSV lines semicolon) [] = Ok l /\ forall c, find_code c l = first_for c es.
Proof.
  intros lines es L.
  assert (G : forall acc done, (forall c, find_code c acc = first_for c done) -> exists l, load_supplementary (readCSV lines semicolon) acc = Ok l /\ forall c, find_code c l = first_for c (done ++ es)).
  { induction L as [|l [k s] ls es E L IH|l ls es E L IH]; intros acc done H.
    - exists acc. rewrite app_nil_r. split; [reflexivity|exact H].
    - destruct E as (f0 & more & Lo & (Nu & R)). cbn [fst snd] in *. unfold readCSV. cbn [map load_supplementary]. fold (readCSV ls semicolon). rewrite !row_at_all.
      change (CSVRow_new l semicolon) with (CSVRow_new l 59). rewrite (line_fields 59 _ _ ltac:(lia) ltac:(lia) Lo). change (N.to_nat 0) with 0%nat. change (N.to_nat 1) with 1%nat. cbn [nth_error].
      rewrite (stoi_number _ _ Nu), u16_code by exact R.
      replace (done ++ (k, s) :: es) with ((done ++ [(k, s)]) ++ es) by (rewrite <- app_assoc; reflexivity). apply IH. intros c. rewrite first_app, <- H.
      destruct (find_code k acc) as [x|] eqn:Ek.
      + destruct (find_code c acc) as [y|] eqn:Ec; [reflexivity|]. unfold first_for. cbn [find fst]. destruct (N.eqb_spec k c) as [<-|]; [congruence|reflexivity].
      + rewrite find_first, first_app, <- find_first. reflexivity.
    - unfold readCSV. cbn [map load_supplementary]. fold (readCSV ls semicolon). destruct E as [B|(f0 & Lo)].
      + rewrite blank_at by (exact B || (unfold semicolon; lia)). apply IH. exact H.
      + rewrite !row_at_all. change (CSVRow_new l semicolon) with (CSVRow_new l 59). rewrite (line_fields 59 _ _ ltac:(lia) ltac:(lia) Lo). change (N.to_nat 0) with 0%nat. change (N.to_nat 1) with 1%nat. cbn [nth_error].
        apply IH. exact H. }
  destruct (G [] []) as (l & E & H); [reflexivity|]. exists l. split; [exact E|exact H].
Qed.

(* Checks by computation that files are as the specification says *)
Fixpoint fields_of (d : N) (s : bytes) : list bytes :=
  match s with
  | [] => [[]]
  | c :: r => if c =? d then [] :: fields_of d r else match fields_of d r with f :: fs => (c :: f) :: fs | [] => [] end
  end.
Definition line_check (d : N) (fields : list bytes) (line : bytes) : bool :=
  bytes_eqb line (separated d fields) && forallb (forallb (fun c => negb ((c =? d) || (c =? 10) || (c =? 13)))) fields &&
  match fields with [] | [[]] => false | _ => true end.
Lemma line_checked : forall d fields line, line_check d fields line = true -> line_of d fields line.
Proof.
  intros d fields line H. apply andb_prop in H. destruct H as (H & H3). apply andb_prop in H. destruct H as (H1 & H2). split; [left; apply bytes_eqb_eq; exact H1|].
  split; [|split; intros ->; discriminate]. apply Forall_forall. intros f I. rewrite forallb_forall in H2. specialize (H2 f I). apply Forall_forall. intros c J. rewrite forallb_forall in H2. specialize (H2 c J). lia.
Qed.
Definition number_check (t : bytes) (z : Z) : bool :=
  let '(minus, plus, ds) := match t with c :: r => if c =? 45 then (true, false, r) else if c =? 43 then (false, true, r) else (false, false, t) | [] => (false, false, t) end in
  negb (match ds with [] => true | _ => false end) && forallb (fun c => (48 <=? c) && (c <=? 57)) ds && (Z.abs_N z =? digits_value ds) &&
  (-2147483648 <=? z)%Z && (z <=? 2147483647)%Z && Bool.eqb minus (z <? 0)%Z.
Lemma number_checked : forall t z, number_check t z = true -> number t z.
Proof.
  intros t z H. unfold number_check in H.
  assert (X : exists minus plus ds, negb (match ds with [] => true | _ => false end) && forallb (fun c => (48 <=? c) && (c <=? 57)) ds && (Z.abs_N z =? digits_value ds) &&
    (-2147483648 <=? z)%Z && (z <=? 2147483647)%Z && Bool.eqb minus (z <? 0)%Z = true /\ t = (if minus : bool then bs "-" else if plus : bool then bs "+" else []) ++ ds).
  { destruct t as [|c r]; [exists false, false, []; auto|]. destruct (N.eqb_spec c 45) as [->|]; [exists true, false, r; auto|]. destruct (N.eqb_spec c 43) as [->|]; [exists false, true, r; auto|exists false, false, (c :: r); auto]. }
  destruct X as (minus & plus & ds & H' & ->). clear H. repeat (apply andb_prop in H'; destruct H' as (H' & ?)).
  eexists _, ds. split; [reflexivity|]. split; [intros ->; discriminate|]. split. { apply Forall_forall. intros c I. rewrite forallb_forall in H3. specialize (H3 c I). unfold digit. lia. }
  split; [lia|]. split; [lia|]. apply eqb_prop in H. rewrite <- H. destruct minus; [reflexivity|]. destruct plus; auto.
Qed.
Lemma cell_checked : forall titles line i title v (P : bytes -> Prop), line_check 59 (fields_of 59 line) line = true ->
  match nth_error titles i with Some x => bytes_eqb x (bs title) | None => false end && forallb (fun x => negb (bytes_eqb x (bs title))) (skipn (S i) titles) = true ->
  nth_error (fields_of 59 line) i = Some v -> P v -> cell titles line title P.
Proof.
  intros titles line i title v P L T F Pv. exists (fields_of 59 line), v. split; [apply line_checked; exact L|]. split; [|exact Pv].
  apply andb_prop in T. destruct T as (T1 & T2). destruct (nth_error titles i) as [x|] eqn:En; [|discriminate]. apply bytes_eqb_eq in T1. subst x.
  destruct (nth_error_split _ _ En) as (before & after & -> & Lb). exists before, after. split; [reflexivity|]. split; [|rewrite Lb; exact F].
  intros I. rewrite forallb_forall in T2. assert (J : In (bs title) (skipn (S i) (before ++ bs title :: after))).
  { rewrite <- Lb. rewrite skipn_app, skipn_all2 by lia. replace (Datatypes.S (length before) - length before)%nat with 1%nat by lia. exact I. }
  specialize (T2 _ J). rewrite (proj2 (bytes_eqb_eq _ _) eq_refl) in T2. discriminate.
Qed.
(* A row of the event list *)
Definition code_check (t : bytes) (n : N) : bool := number_check t (Z.of_N n) && (n <? 65536).
Definition option_check (t : bytes) (z : option Z) : bool := match z with Some z => number_check t z | None => match t with [] => true | _ => false end end.
Definition event_titles : list bytes := map bs ["Code"; "Description"; "Description with Q"; "N"; "Q"; "T"; "D"; "U"; "C"; "R"].
Definition event_check (line : bytes) (r : event_row) : bool :=
  line_check 59 (fields_of 59 line) line &&
  match fields_of 59 line with
  | [c; d; dq; n; q; t; dir; u; cls; ref] =>
      code_check c (e_code r) && bytes_eqb d (e_text r) && bytes_eqb dq (e_with_quantity r) && option_check q (e_quantity r) &&
      bytes_eqb u (e_urgency r) && option_check dir (e_directions r) && code_check cls (e_class r)
  | _ => false
  end.
Lemma code_checked : forall t n, code_check t n = true -> has_code n t.
Proof. intros t n H. apply andb_prop in H. destruct H as (H1 & H2). split; [apply number_checked; exact H1|lia]. Qed.
Lemma option_checked : forall t z, option_check t z = true -> perhaps has_number z t.
Proof. intros t [z|] H; [apply number_checked; exact H|]. destruct t; [reflexivity|discriminate]. Qed.
Lemma event_checked : forall line r, event_check line r = true -> is_event event_titles line r.
Proof.
  intros line r H. apply andb_prop in H. destruct H as (L & H).
  assert (C : forall i title v P, nth_error (fields_of 59 line) i = Some v -> match nth_error event_titles i with Some x => bytes_eqb x (bs title) | None => false end && forallb (fun x => negb (bytes_eqb x (bs title))) (skipn (S i) event_titles) = true -> (P v : Prop) -> cell event_titles line title P)
    by (intros i title v P A B Pv; exact (cell_checked event_titles line i title v P L B A Pv)).
  destruct (fields_of 59 line) as [|c [|d [|dq [|n [|q [|t [|dir [|u [|cls [|ref [|x more]]]]]]]]]]]; try discriminate H.
  do 6 (apply andb_prop in H; destruct H as (H & ?)).
  repeat match goal with X : bytes_eqb _ _ = true |- _ => apply bytes_eqb_eq in X end.
  split; [apply (C 0%nat _ c); [reflexivity|reflexivity|apply code_checked; assumption]|].
  split; [apply (C 1%nat _ d); [reflexivity|reflexivity|congruence]|].
  split; [apply (C 2%nat _ dq); [reflexivity|reflexivity|congruence]|].
  split; [apply (C 3%nat _ n); [reflexivity|reflexivity|exact I]|].
  split; [apply (C 4%nat _ q); [reflexivity|reflexivity|apply option_checked; assumption]|].
  split; [apply (C 7%nat _ u); [reflexivity|reflexivity|congruence]|].
  split; [apply (C 5%nat _ t); [reflexivity|reflexivity|exact I]|].
  split; [apply (C 6%nat _ dir); [reflexivity|reflexivity|apply option_checked; assumption]|].
  apply (C 8%nat _ cls); [reflexivity|reflexivity|apply code_checked; assumption].
Qed.
(* Rows by computation *)
Definition decimal (t : bytes) : N := digits_value t.
Definition option_decimal (t : bytes) : option Z := match t with [] => None | _ => Some (Z.of_N (decimal t)) end.
Definition event_row_of (line : bytes) : event_row :=
  match fields_of 59 line with
  | [c; d; dq; n; q; t; dir; u; cls; ref] => mkEventRow (decimal c) d dq (option_decimal q) u (option_decimal dir) (decimal cls)
  | _ => mkEventRow 0 [] [] None [] None 0
  end.
Lemma events_checked : forall ls, forallb (fun l => event_check l (event_row_of l)) ls = true -> lines_are (is_event event_titles) blank ls (map event_row_of ls).
Proof.
  intros ls. induction ls as [|l ls IH]; intros H; [apply lines_end|]. cbn [forallb] in H. apply andb_prop in H. destruct H as (H1 & H2). apply lines_entry; [apply event_checked; exact H1|apply IH; exact H2].
Qed.
Definition suppl_row_of (line : bytes) : N * bytes := match fields_of 59 line with c :: s :: _ => (decimal c, s) | _ => (0, []) end.
Definition suppl_check (line : bytes) : bool :=
  line_check 59 (fields_of 59 line) line && match fields_of 59 line with c :: s :: _ => code_check c (fst (suppl_row_of line)) | _ => false end.
Lemma suppl_checked : forall ls, forallb suppl_check ls = true -> lines_are suppl_line no_suppl_line ls (map suppl_row_of ls).
Proof.
  intros ls. induction ls as [|l ls IH]; intros H; [apply lines_end|]. cbn [forallb] in H. apply andb_prop in H. destruct H as (H1 & H2). apply lines_entry; [|apply IH; exact H2].
  clear IH H2. unfold suppl_check in H1. apply andb_prop in H1. destruct H1 as (L & H). apply line_checked in L. unfold suppl_row_of in *. destruct (fields_of 59 l) as [|c [|s more]]; try discriminate H.
  exists c, more. split; [exact L|apply code_checked; exact H].
Qed.
