(* The descriptions of traffic messages. *)
From Verif.Model Require Import Base Util Group Tables Json Freq RdsString Tmc.
From Verif.Spec Require Import Texts Apps Traffic.
From Verif.Proofs Require Import Tac Numerals FreqP TmcP TmcMsgP.

Local Open Scope N_scope.
Local Open Scope list_scope.

(* ---- quantities ---- *)
Definition quantity_agrees (t : QuantifierType) (q : N) : bool :=
  match quantity t q with Some text => Base.bytes_eqb (quantifier_text t q) text | None => true end.
Lemma quantities_agree : forall t, forallb (quantity_agrees t) (nseq 0 (if five_bits t then 32 else 256)) = true.
Proof. intros t. destruct t; vm_compute; reflexivity. Qed.
Lemma quantity_texts : forall t q text, q < (if five_bits t then 32 else 256) -> quantity t q = Some text -> quantifier_text t q = text.
Proof.
  intros t q text Hq E. pose proof (quantities_agree t) as A. rewrite forallb_forall in A.
  assert (X : In q (nseq 0 (if five_bits t then 32 else 256))) by (apply nseq_In; destruct (five_bits t); lia).
  specialize (A q X). unfold quantity_agrees in A. rewrite E in A. apply FreqP.bytes_eqb_eq in A. exact A.
Qed.

(* ---- marks ---- *)
Lemma fills : forall q n s, (length s <= n)%nat -> filled_in q s (replace_Q q s).
Proof.
  intros q n. induction n as [|n IH]; intros s L; [destruct s; [constructor|cbn in L; lia]|].
  destruct s as [|c s]; [constructor|]. cbn [length] in L.
  assert (D : (exists r, c :: s = bs "(Q)" ++ r) \/ (replace_Q q (c :: s) = c :: replace_Q q s /\ forall r, c :: s <> bs "(Q)" ++ r)).
  { destruct (N.eq_dec c 40) as [->|Nc].
    - destruct s as [|a [|b s]]; [right; split; [reflexivity|discriminate]| |].
      + right. split; [|discriminate]. cbn. destruct a as [|a]; [reflexivity|]. do 7 (try (destruct a as [a|a|]; try reflexivity)).
      + destruct (N.eq_dec a 81) as [->|Na].
        * destruct (N.eq_dec b 41) as [->|Nb]; [left; exists s; reflexivity|]. right. split; [|intros r X; cbn in X; congruence].
          cbn. destruct b as [|b]; [reflexivity|]. do 6 (try (destruct b as [b|b|]; try reflexivity)). congruence.
        * right. split; [|intros r X; cbn in X; congruence]. cbn. destruct a as [|a]; [reflexivity|]. do 7 (try (destruct a as [a|a|]; try reflexivity)). congruence.
    - right. split; [|intros r X; cbn in X; congruence]. cbn. destruct c as [|c]; [reflexivity|]. do 6 (try (destruct c as [c|c|]; try reflexivity)). congruence. }
  destruct D as [[r E]|[E Nr]].
  - rewrite E. change (replace_Q q (bs "(Q)" ++ r)) with (q ++ replace_Q q r). apply filled_mark, IH. apply (f_equal (@length N)) in E. rewrite app_length in E. cbn in E. lia.
  - rewrite E. apply filled_other; [exact Nr|]. apply IH. lia.
Qed.

(* ---- sentences ---- *)
Definition said (d : TmcData) (cur : option N) (r : N * list (N * N)) : list bytes :=
  match td_event d (fst r) with
  | Some row => [ucfirst (match or_else cur (quantity_code row (snd r)) with
                          | Some q => getDescriptionWithQuantifier row q
                          | None => ev_description row
                          end)]
  | None => []
  end.
Definition said_all (d : TmcData) (cur : option N) (l : list (N * list (N * N))) : list bytes :=
  match l with [] => [] | r :: t => said d cur r ++ flat_map (said d None) t end.

Lemma sentences_app : forall d Q a b i, event_sentences d Q i (a ++ b) = event_sentences d Q i a ++ event_sentences d Q (i + N.of_nat (length a)) b.
Proof.
  intros d Q a. induction a as [|c a IH]; intros b i.
  - cbn [app length event_sentences]. rewrite N.add_0_r. reflexivity.
  - cbn [app event_sentences]. rewrite IH, app_assoc. do 2 f_equal. cbn [length]. lia.
Qed.
Lemma find_absent : forall A k (l : list (N * A)), (forall p, In p l -> fst p <> k) -> find_code k l = None.
Proof.
  intros A k l. induction l as [|[k' v] l IH]; intros H; [reflexivity|]. cbn [find_code]. destruct (N.eqb_spec k k') as [->|_].
  - exfalso. apply (H (k', v)); [left; reflexivity|reflexivity].
  - apply IH. intros p Hp. apply H. right. exact Hp.
Qed.
Lemma find_snoc : forall A k (l : list (N * A)) k' v, find_code k (l ++ [(k', v)]) = or_else (find_code k l) (if k =? k' then Some v else None).
Proof.
  intros A k l k' v. induction l as [|[k0 v0] l IH]; [reflexivity|]. cbn [app find_code]. destruct (k =? k0); [reflexivity|exact IH].
Qed.
Lemma sentences_more : forall d Q k v ev i, i + N.of_nat (length ev) <= k -> event_sentences d (Q ++ [(k, v)]) i ev = event_sentences d Q i ev.
Proof.
  intros d Q k v ev. induction ev as [|c ev IH]; intros i H; [reflexivity|]. cbn [event_sentences]. cbn [length] in H. rewrite IH by lia. f_equal.
  rewrite find_snoc. destruct (N.eqb_spec i k) as [->|_]; [lia|]. destruct (find_code i Q); reflexivity.
Qed.
Lemma takes_last : forall d pre e Q size, takes d (pre ++ [e]) Q size =
  match find_code (N.of_nat (length pre)) Q with Some _ => false | None => true end &&
  ev_allows_quantifier (getEvent d e) && (getQuantifierSize (ev_quantifier_type (getEvent d e)) =? size).
Proof.
  intros d pre e Q size. unfold takes. cbv zeta. rewrite app_length. cbn [length].
  replace (N.of_nat (length pre + 1) - 1) with (N.of_nat (length pre)) by lia. replace (N.of_nat (length pre + 1) =? 0) with false by lia.
  rewrite Nat2N.id, nth_middle. cbn [negb andb]. f_equal. f_equal.
  induction Q as [|[k v] Q IH]; [reflexivity|]. cbn [existsb find_code fst]. destruct (N.of_nat (length pre) =? k); [reflexivity|exact IH].
Qed.
Lemma reports_cons : forall e fs, exists own t, reports e fs = (e, own) :: t.
Proof.
  intros e fs. revert e. induction fs as [|f fs IH]; intros e; [eexists; eexists; reflexivity|]. cbn [reports]. destruct (fst f =? 9); [eexists; eexists; reflexivity|].
  destruct (IH e) as (own & t & ->). eexists. eexists. reflexivity.
Qed.
Lemma five_size : forall t, getQuantifierSize t = if five_bits t then 5 else 8.
Proof. intros []; reflexivity. Qed.

Lemma sentences_are : forall d fs pre e Q, (forall p, In p Q -> fst p <= N.of_nat (length pre)) ->
  event_sentences d (quants d (pre ++ [e]) Q fs) 0 ((pre ++ [e]) ++ all_of 9 fs) =
  event_sentences d Q 0 pre ++ said_all d (find_code (N.of_nat (length pre)) Q) (reports e fs).
Proof.
  intros d fs. induction fs as [|[l v] fs IH]; intros pre e Q K.
  - cbn [quants all_of flat_map reports said_all]. rewrite !app_nil_r, sentences_app. f_equal. cbn [event_sentences]. unfold said. cbn [fst snd]. rewrite N.add_0_l.
    destruct (td_event d e) as [row|]; [|reflexivity]. cbn [app]. do 2 f_equal. destruct (find_code _ Q); [reflexivity|]. cbn [or_else]. unfold quantity_code, all_of. cbn [flat_map hd_error].
    destruct (ev_allows_quantifier row); reflexivity.
  - rewrite all_of_cons. cbn [quants reports fst snd]. destruct (l =? 9) eqn:E9.
    + change ([v] ++ all_of 9 fs) with ([v] ++ all_of 9 fs). rewrite app_assoc, (IH (pre ++ [e]) v Q).
      2: { intros p Hp. specialize (K p Hp). rewrite app_length. cbn [length]. lia. }
      rewrite sentences_app, <- app_assoc. f_equal. cbn [event_sentences said_all flat_map]. rewrite N.add_0_l, (app_nil_r (match td_event d e with Some _ => _ | None => _ end)). f_equal.
      * unfold said. cbn [fst snd]. destruct (td_event d e) as [row|]; [|reflexivity]. do 2 f_equal. destruct (find_code _ Q); [reflexivity|]. cbn [or_else]. unfold quantity_code, all_of. cbn [flat_map hd_error].
        destruct (ev_allows_quantifier row); reflexivity.
      * rewrite (find_absent _ (N.of_nat (length (pre ++ [e]))) Q). 2: { intros p Hp. specialize (K p Hp). rewrite app_length. cbn [length]. lia. }
        destruct (reports_cons v fs) as (own & t & ->). reflexivity.
    + cbn [app]. destruct (reports_cons e fs) as (own & t & R). rewrite !takes_last.
      set (cur := find_code (N.of_nat (length pre)) Q) in *.
      assert (Row : forall row, td_event d e = Some row -> getEvent d e = row) by (intros row X; unfold getEvent; rewrite X; reflexivity).
      destruct (_ || _) eqn:T.
      * rewrite IH.
        2: { intros p Hp. apply in_app_or in Hp. destruct Hp as [Hp|[<-|[]]]; [exact (K p Hp)|]. cbn [fst]. rewrite app_length. cbn [length]. lia. }
        rewrite app_length. cbn [length]. replace (N.of_nat (length pre + 1) - 1) with (N.of_nat (length pre)) by lia.
        rewrite sentences_more by lia. f_equal. rewrite find_snoc, N.eqb_refl. fold cur. rewrite R. cbn [said_all]. f_equal.
        assert (C : cur = None). { destruct cur; [|reflexivity]. cbn [andb] in T. rewrite !andb_false_r in T. discriminate T. } rewrite C in *. cbn [or_else andb] in *.
        unfold said. cbn [fst snd]. destruct (td_event d e) as [row|] eqn:Er; [|reflexivity]. rewrite (Row row eq_refl), five_size in T. do 2 f_equal. cbn [or_else].
        unfold quantity_code, all_of. cbn [flat_map fst snd]. destruct (ev_allows_quantifier row); [|rewrite !andb_false_r in T; discriminate T]. cbn [andb] in T.
        destruct (five_bits (ev_quantifier_type row)); cbn [N.eqb Pos.eqb] in T; rewrite ?andb_true_r, ?andb_false_r, ?orb_false_r in T; cbn [orb] in T; rewrite T; reflexivity.
      * rewrite IH by exact K. f_equal. fold cur. rewrite R. cbn [said_all]. f_equal.
        unfold said. cbn [fst snd]. destruct (td_event d e) as [row|] eqn:Er; [|reflexivity]. rewrite (Row row eq_refl), five_size in T. do 2 f_equal.
        destruct cur; [reflexivity|]. cbn [or_else andb] in *. unfold quantity_code, all_of. cbn [flat_map fst snd]. destruct (ev_allows_quantifier row); [|reflexivity]. cbn [andb] in T.
        destruct (five_bits (ev_quantifier_type row)); cbn [N.eqb Pos.eqb] in T; rewrite ?andb_true_r, ?andb_false_r, ?orb_false_r in T; cbn [orb] in T; rewrite T; reflexivity.
Qed.

(* ---- descriptions ---- *)
Lemma own_fields : forall fs e r f, In r (reports e fs) -> In f (snd r) -> In f fs.
Proof.
  intros fs. induction fs as [|f0 fs IH]; intros e r f Hr Hf.
  - destruct Hr as [<-|[]]. destruct Hf.
  - cbn [reports] in Hr. destruct (fst f0 =? 9).
    + destruct Hr as [<-|Hr]; [destruct Hf|]. right. exact (IH _ _ _ Hr Hf).
    + destruct (reports_cons e fs) as (own & t & R). rewrite R in Hr. destruct Hr as [<-|Hr].
      * cbn [snd] in Hf. destruct Hf as [->|Hf]; [left; reflexivity|]. right. apply (IH e (e, own) f); [rewrite R; left; reflexivity|exact Hf].
      * right. apply (IH e r f); [rewrite R; right; exact Hr|exact Hf].
Qed.
Lemma code_small : forall fs e r row code, Forall field_ok fs -> In r (reports e fs) -> quantity_code row (snd r) = Some code ->
  code < (if five_bits (ev_quantifier_type row) then 32 else 256).
Proof.
  intros fs e r row code F Hr Hc. unfold quantity_code in Hc. destruct (ev_allows_quantifier row); [|discriminate Hc].
  set (l := if five_bits _ then 4 else 5) in Hc. assert (X : In code (all_of l (snd r))) by (destruct (all_of l (snd r)); [discriminate Hc|]; injection Hc as ->; left; reflexivity).
  unfold all_of in X. apply in_flat_map in X. destruct X as ([l' v] & Hf & X). cbn [fst snd] in X. destruct (N.eqb_spec l' l) as [->|]; [|destruct X]. destruct X as [->|[]].
  rewrite Forall_forall in F. destruct (F _ (own_fields _ _ _ _ Hr Hf)) as (_ & B & _). cbn [fst snd] in B. subst l. destruct (five_bits _); exact B.
Qed.
Lemma said_sentences : forall d l, (forall r row code, In r l -> td_event d (fst r) = Some row -> quantity_code row (snd r) = Some code ->
    code < (if five_bits (ev_quantifier_type row) then 32 else 256) /\ quantity (ev_quantifier_type row) code <> None) ->
  Forall2 (fun r s => sentence (fst r) (snd r) s) (flat_map (fun r => match td_event d (fst r) with Some row => [(row, snd r)] | None => [] end) l) (flat_map (said d None) l).
Proof.
  intros d l. induction l as [|r l IH]; intros H; [constructor|]. cbn [flat_map]. apply Forall2_app; [|apply IH; intros r0 row code Hr; apply H; right; exact Hr].
  unfold said. destruct (td_event d (fst r)) as [row|] eqn:E; [|constructor]. constructor; [|constructor]. cbn [or_else fst snd]. unfold sentence.
  eexists. split; [reflexivity|]. destruct (quantity_code row (snd r)) as [code|] eqn:Ec; [|reflexivity].
  destruct (H r row code (or_introl eq_refl) E Ec) as [B N0]. destruct (quantity (ev_quantifier_type row) code) as [q|] eqn:Eq; [|contradiction].
  exists q. split; [reflexivity|]. unfold getDescriptionWithQuantifier. rewrite (quantity_texts _ _ _ B Eq). apply (fills q (length (ev_description_with_quantifier row))). lia.
Qed.
Lemma punctuated_join : forall l, l <> [] -> punctuated l = join l (bs ". ") ++ bs ".".
Proof.
  intros l. induction l as [|s l IH]; intros N0; [contradiction|]. destruct l as [|s' l]; [reflexivity|].
  change (punctuated (s :: s' :: l)) with (s ++ bs ". " ++ punctuated (s' :: l)). rewrite IH by discriminate. change (join (s :: s' :: l) (bs ". ")) with (s ++ bs ". " ++ join (s' :: l) (bs ". ")).
  rewrite <- !app_assoc. reflexivity.
Qed.
Lemma description_of : forall d ms, message_ok ms -> meaningful d ms ->
  exists l, Forall2 (fun r s => sentence (fst r) (snd r) s) (known_reports d ms) l /\
    event_sentences d (quants d [ms_event ms] [] (ms_fields ms)) 0 (ms_event ms :: all_of 9 (ms_fields ms)) ++ suppl_sentences d (all_of 6 (ms_fields ms)) = l ++ supplements d ms.
Proof.
  intros d ms (_ & _ & _ & F) Mg. exists (flat_map (said d None) (reports (ms_event ms) (ms_fields ms))). split.
  - apply said_sentences. intros r row code Hr Er Ec. split; [exact (code_small _ _ _ _ _ F Hr Ec)|].
    unfold meaningful in Mg. rewrite Forall_forall in Mg. apply (Mg (row, snd r)); [|exact Ec]. unfold known_reports. apply in_flat_map. exists r. split; [exact Hr|]. rewrite Er. left. reflexivity.
  - f_equal. pose proof (sentences_are d (ms_fields ms) [] (ms_event ms) []) as X. change (([] ++ [ms_event ms]) ++ all_of 9 (ms_fields ms)) with (ms_event ms :: all_of 9 (ms_fields ms)) in X.
    change ([] ++ [ms_event ms]) with [ms_event ms] in X. rewrite X by (intros p []). cbn [event_sentences app find_code].
    destruct (reports (ms_event ms) (ms_fields ms)); reflexivity.
Qed.
