(* Carrier frequencies and the alternative-frequency list. *)
From Verif.Proofs Require Import Tac Numerals.
From Verif.Model Require Import Util Float Freq.
From Verif.Spec Require Import Numerals Frequencies.

Lemma fm_valid : forall c, cf_isValid (mkFreq c FM) = true <-> 1 <= c /\ c <= 204.
Proof. intros c. unfold cf_isValid. cbn [cf_band cf_code]. lia. Qed.
Lemma lf_valid : forall c, cf_isValid (mkFreq c LF_MF) = true <-> 1 <= c /\ c <= 135.
Proof. intros c. unfold cf_isValid. cbn [cf_band cf_code]. lia. Qed.

Definition freq_of (f : tx_freq) : CarrierFrequency :=
  match f with TxFM c => mkFreq c FM | TxLFMF c => mkFreq c LF_MF end.

Lemma freq_of_ok : forall f, tx_freq_ok f <-> cf_isValid (freq_of f) = true.
Proof. intros [c|c]; cbn [tx_freq_ok freq_of]; [rewrite fm_valid|rewrite lf_valid]; tauto. Qed.

Lemma kHz_of : forall f, tx_freq_ok f -> cf_kHz (freq_of f) = freq_kHz f.
Proof.
  intros f H. unfold cf_kHz. pose proof (proj1 (freq_of_ok f) H) as V. rewrite V. clear V.
  destruct f as [c|c]; cbn [freq_of cf_band cf_code freq_kHz tx_freq_ok] in *; [lia|].
  destruct (c <=? 15) eqn:E; lia.
Qed.

Lemma kHz_distinct : forall f g, tx_freq_ok f -> tx_freq_ok g -> freq_kHz f = freq_kHz g -> f = g.
Proof.
  intros [c|c] [d|d] F G E; cbn [tx_freq_ok freq_kHz] in *;
  repeat match type of E with context [?a <=? ?b] => destruct (a <=? b) eqn:?; try lia end;
  solve [f_equal; lia | exfalso; lia].
Qed.

(* 204 evaluations of the binary32 product and its rounding to one decimal *)
Definition fm_text_ok (c : N) : bool :=
  bytes_eqb (cf_str (mkFreq c FM))
    (dec_string ((875 + c) / 10) ++ [46; 48 + (875 + c) mod 10] ++ bs " MHz").

Lemma bytes_eqb_eq : forall a b, bytes_eqb a b = true <-> a = b.
Proof.
  induction a as [|x a IH]; intros [|y b]; cbn [bytes_eqb]; split; intros H; try discriminate; try reflexivity.
  - apply andb_prop in H. destruct H as [H1 H2]. apply N.eqb_eq in H1. apply IH in H2. congruence.
  - injection H as -> H. rewrite N.eqb_refl. cbn [andb]. apply IH. exact H.
Qed.

Lemma fm_text_sweep : forallb fm_text_ok (nseq 1 204) = true.
Proof. vm_compute. reflexivity. Qed.

Lemma fm_text : forall c, 1 <= c -> c <= 204 ->
  cf_str (mkFreq c FM) = dec_string ((875 + c) / 10) ++ [46; 48 + (875 + c) mod 10] ++ bs " MHz".
Proof.
  intros c H1 H2. apply bytes_eqb_eq.
  exact (forallb_In fm_text_ok _ c fm_text_sweep (nseq_In 204 1 c H1 ltac:(cbn; lia))).
Qed.

Lemma lf_text : forall c, 1 <= c -> c <= 135 ->
  cf_str (mkFreq c LF_MF) = dec_string (freq_kHz (TxLFMF c)) ++ bs " kHz".
Proof.
  intros c H1 H2. unfold cf_str. rewrite (proj2 (lf_valid c) (conj H1 H2)).
  cbn [cf_band]. rewrite <- (kHz_of (TxLFMF c)); [reflexivity|]. split; assumption.
Qed.

Lemma invalid_text : forall f, cf_isValid f = false -> cf_kHz f = 0 /\ cf_str f = bs "N/A".
Proof. intros f H. unfold cf_kHz, cf_str. rewrite H. split; reflexivity. Qed.

(* --- the list --- *)
Fixpoint insert_all (l : AltFreqList) (codes : list N) : res AltFreqList :=
  match codes with
  | [] => Ok l
  | c :: r => l' <- af_insert l c ;; insert_all l' r
  end.

Lemma insert_all_app : forall a b l, insert_all l (a ++ b) = (l' <- insert_all l a ;; insert_all l' b).
Proof.
  induction a as [|c a IH]; intros b l; [reflexivity|]. cbn [app insert_all].
  destruct (af_insert l c) as [l'| |]; cbn [bind]; [apply IH|reflexivity|reflexivity].
Qed.

Definition af_wf (l : AltFreqList) : Prop :=
  length (alt_freqs l) = 25%nat /\ num_received l <= num_expected l /\ num_expected l <= 25.

Lemma af_init_wf : af_wf af_init.
Proof. unfold af_wf, af_init. cbn. repeat split; lia. Qed.

Lemma af_clear_wf : forall l, af_wf l -> af_wf (af_clear l).
Proof. intros l (A & B & C). unfold af_wf, af_clear. cbn. repeat split; [exact A|lia|lia]. Qed.

Lemma af_insert_wf : forall l c, af_wf l -> exists l', af_insert l c = Ok l' /\ af_wf l'.
Proof.
  intros l c (A & B & C). unfold af_insert, af_wf.
  cbn [alt_freqs num_expected num_received lf_mf_follows].
  destruct (cf_isValid _ && (0 <? num_expected l)) eqn:E1.
  - destruct (num_received l <? num_expected l) eqn:E2.
    + unfold arr_set. rewrite A. replace (num_received l <? N.of_nat 25) with true by lia.
      cbn [bind]. eexists. split; [reflexivity|]. cbn. rewrite list_set_length. repeat split; lia.
    + eexists. split; [reflexivity|]. cbn. repeat split; lia.
  - destruct ((c =? 205) || (c =? 224)); [eexists; split; [reflexivity|]; cbn; repeat split; lia|].
    destruct ((225 <=? c) && (c <=? 249)) eqn:E3; [eexists; split; [reflexivity|]; cbn; repeat split; lia|].
    destruct (c =? 250); eexists; (split; [reflexivity|]); cbn; repeat split; lia.
Qed.

(* The state after a header and some frequencies *)
Definition af_at (l : AltFreqList) (n : nat) (got : list N) (lf : bool) : Prop :=
  length (alt_freqs l) = 25%nat /\ num_expected l = N.of_nat n /\ num_received l = N.of_nat (length got) /\
  firstn (length got) (alt_freqs l) = got /\ lf_mf_follows l = lf.

Lemma insert_header : forall l n, (1 <= n <= 25)%nat -> length (alt_freqs l) = 25%nat ->
  exists l', af_insert l (224 + N.of_nat n) = Ok l' /\ af_at l' n [] false.
Proof.
  intros l n Hn Hl. unfold af_insert. cbn [alt_freqs num_expected num_received lf_mf_follows].
  replace (cf_isValid _) with false.
  2:{ unfold cf_isValid. cbn [cf_code cf_band]. destruct (lf_mf_follows l); lia. }
  cbn [andb].
  replace ((224 + N.of_nat n =? 205) || (224 + N.of_nat n =? 224)) with false by lia.
  replace ((225 <=? 224 + N.of_nat n) && (224 + N.of_nat n <=? 249)) with true by lia.
  eexists. split; [reflexivity|]. unfold af_at. cbn [alt_freqs num_expected num_received lf_mf_follows length firstn].
  repeat split; [exact Hl|lia].
Qed.

Lemma insert_filler : forall l n got, (1 <= n)%nat -> af_at l n got false ->
  exists l', af_insert l filler = Ok l' /\ af_at l' n got false.
Proof.
  intros l n got Hn (A & B & C & D & E). unfold af_insert, filler.
  cbn [alt_freqs num_expected num_received lf_mf_follows]. rewrite E.
  change (cf_isValid (mkFreq 205 FM)) with false. cbn [andb].
  change ((205 =? 205) || (205 =? 224)) with true. cbv iota.
  eexists. split; [reflexivity|]. unfold af_at. cbn. repeat split; assumption.
Qed.

Lemma firstn_list_set_snoc : forall {A} (l : list A) k x, (k < length l)%nat ->
  firstn (S k) (list_set l k x) = firstn k l ++ [x].
Proof.
  induction l as [|y l IH]; intros k x H; cbn in H; [lia|].
  destruct k as [|k]; [reflexivity|]. cbn [list_set firstn app]. f_equal. apply IH. lia.
Qed.

Lemma insert_freq1 : forall l n got b c, (length got < n)%nat -> (n <= 25)%nat ->
  af_at l n got b -> cf_isValid (mkFreq c (if b then LF_MF else FM)) = true ->
  exists l', af_insert l c = Ok l' /\ af_at l' n (got ++ [cf_kHz (mkFreq c (if b then LF_MF else FM))]) false.
Proof.
  intros l n got b c Hlt Hn (A & B & C & D & E) V. unfold af_insert.
  cbn [alt_freqs num_expected num_received lf_mf_follows]. rewrite E, V, B, C.
  replace (0 <? N.of_nat n) with true by lia. cbn [andb].
  replace (N.of_nat (length got) <? N.of_nat n) with true by lia.
  unfold arr_set. rewrite A. replace (N.of_nat (length got) <? N.of_nat 25) with true by lia.
  cbn [bind]. eexists. split; [reflexivity|]. unfold af_at.
  cbn [alt_freqs num_expected num_received lf_mf_follows].
  rewrite list_set_length, app_length. cbn [length]. repeat split; [exact A|lia|].
  replace (length got + 1)%nat with (S (length got)) by lia. rewrite Nat2N.id.
  rewrite firstn_list_set_snoc by lia. rewrite D. reflexivity.
Qed.

Lemma insert_freq : forall l n got f, (length got < n)%nat -> (n <= 25)%nat -> tx_freq_ok f ->
  af_at l n got false ->
  exists l', insert_all l (freq_codes f) = Ok l' /\ af_at l' n (got ++ [freq_kHz f]) false.
Proof.
  intros l n got f Hlt Hn Hf Hat. rewrite <- (kHz_of f Hf). pose proof (proj1 (freq_of_ok f) Hf) as V.
  destruct f as [c|c]; cbn [freq_codes insert_all freq_of] in *.
  - destruct (insert_freq1 l n got false c Hlt Hn Hat V) as (l' & E & H). rewrite E. cbn [bind]. eauto.
  - assert (X : exists l1, af_insert l 250 = Ok l1 /\ af_at l1 n got true).
    { destruct Hat as (A & B & C & D & E). unfold af_insert.
      cbn [alt_freqs num_expected num_received lf_mf_follows]. rewrite E.
      change (cf_isValid (mkFreq 250 FM)) with false. cbn [andb].
      change ((250 =? 205) || (250 =? 224)) with false.
      change ((225 <=? 250) && (250 <=? 249)) with false. change (250 =? 250) with true. cbv iota.
      eexists. split; [reflexivity|]. unfold af_at. cbn. repeat split; assumption. }
    destruct X as (l1 & E1 & H1). rewrite E1. cbn [bind].
    destruct (insert_freq1 l1 n got true c Hlt Hn H1 V) as (l' & E & H). rewrite E. cbn [bind]. eauto.
Qed.

Lemma insert_listed : forall fs cs, listed fs cs -> forall l n got,
  (length got + length fs <= n)%nat -> (1 <= n <= 25)%nat -> af_at l n got false ->
  exists l', insert_all l cs = Ok l' /\ af_at l' n (got ++ map freq_kHz fs) false.
Proof.
  induction 1 as [|fs cs L IH|f fs cs Hf L IH]; intros l n got Hlen Hn Hat.
  - exists l. cbn. rewrite app_nil_r. split; [reflexivity|exact Hat].
  - cbn [insert_all]. destruct (insert_filler l n got) as (l1 & E & H1); [lia|exact Hat|].
    rewrite E. cbn [bind]. apply IH; [exact Hlen|exact Hn|exact H1].
  - cbn [length] in Hlen. rewrite insert_all_app.
    destruct (insert_freq l n got f) as (l1 & E & H1); [lia|lia|exact Hf|exact Hat|].
    rewrite E. cbn [bind map].
    destruct (IH l1 n (got ++ [freq_kHz f])) as (l' & E' & H'); [rewrite app_length; cbn; lia|exact Hn|exact H1|].
    exists l'. split; [exact E'|]. rewrite <- app_assoc in H'. exact H'.
Qed.

Lemma at_full : forall l n got, (1 <= n)%nat -> (n <= 25)%nat -> length got = n -> af_at l n got false ->
  af_isComplete l = true /\ af_getRawList l = Ok got.
Proof.
  intros l n got Hn Hn' Hg (A & B & C & D & E). unfold af_isComplete, af_getRawList.
  rewrite A, B, C, Hg. replace (N.of_nat n <=? N.of_nat 25) with true by lia.
  rewrite Nat2N.id, <- Hg, D. split; [lia|reflexivity].
Qed.

Lemma at_partial : forall l n got, (length got < n)%nat -> af_at l n got false -> af_isComplete l = false.
Proof. intros l n got H (A & B & C & D & E). unfold af_isComplete. rewrite B, C. lia. Qed.

(* Every transmitted list is received exactly, whatever came before. *)
Lemma af_received : forall l fs codes, length (alt_freqs l) = 25%nat -> af_transmission fs codes ->
  exists l', insert_all l codes = Ok l' /\ af_at l' (length fs) (map freq_kHz fs) false /\
             af_isComplete l' = true /\ af_getRawList l' = Ok (map freq_kHz fs).
Proof.
  intros l fs codes Hl (H1 & H2 & cs & -> & L). cbn [insert_all].
  destruct (insert_header l (length fs)) as (l1 & E1 & A1); [lia|exact Hl|].
  rewrite E1. cbn [bind].
  destruct (insert_listed fs cs L l1 (length fs) [] ltac:(cbn; lia) ltac:(lia) A1) as (l' & E & A).
  cbn [app] in A. exists l'. split; [exact E|]. split; [exact A|].
  apply (at_full l' (length fs)); [lia|lia|apply map_length|exact A].
Qed.

(* and is not announced before it is complete *)
Lemma af_not_early : forall fs cs, listed fs cs -> forall pre rest l n got,
  cs = pre ++ rest -> rest <> [] -> (exists f, In f rest /\ f <> filler) ->
  (length got + length fs = n)%nat -> (1 <= n <= 25)%nat -> af_at l n got false ->
  exists l', insert_all l pre = Ok l' /\ af_isComplete l' = false /\ num_received l' < N.of_nat n.
Proof.
  induction 1 as [|fs cs L IH|f fs cs Hf L IH]; intros pre rest l n got E NE NF Hlen Hn Hat.
  - symmetry in E. apply app_eq_nil in E. destruct E; contradiction.
  - destruct pre as [|p pre].
    + cbn in E. subst rest. exists l. split; [reflexivity|].
      destruct fs as [|f fs].
      * exfalso. destruct NF as (x & Hin & Hx).
        assert (forall cs, listed [] cs -> Forall (fun y => y = filler) cs) as Q.
        { clear. intros cs H. remember [] as e. induction H; [constructor|constructor; [reflexivity|auto]|discriminate]. }
        destruct Hin as [Hin|Hin]; [apply Hx; symmetry; exact Hin|]. pose proof (proj1 (Forall_forall _ _) (Q cs L) x Hin). contradiction.
      * cbn [length] in Hlen. split; [apply (at_partial l n got); [lia|exact Hat]|].
        destruct Hat as (A & B & C & D & F). rewrite C. lia.
    + cbn [app] in E. injection E as <- E. cbn [insert_all].
      destruct (insert_filler l n got) as (l1 & E1 & H1); [lia|exact Hat|].
      rewrite E1. cbn [bind]. apply (IH pre rest l1 n got); assumption.
  - cbn [length] in Hlen.
    assert (Partial : forall l2 b, af_at l2 n got b -> af_isComplete l2 = false /\ num_received l2 < N.of_nat n).
    { intros l2 b (A & B & C & D & F). unfold af_isComplete. rewrite B, C. lia. }
    assert (Short : forall c, (exists x, c ++ x = freq_codes f /\ x <> []) ->
              exists l', insert_all l c = Ok l' /\ af_isComplete l' = false /\ num_received l' < N.of_nat n).
    { intros c (x & Ex & Nx). destruct c as [|c0 c]; [exists l; split; [reflexivity|apply (Partial l false); exact Hat]|].
      destruct f as [k|k]; cbn [freq_codes app] in Ex.
      - injection Ex as _ Ex. apply app_eq_nil in Ex. destruct Ex; contradiction.
      - injection Ex as -> Ex. destruct c as [|c1 c].
        + destruct Hat as (A & B & C & D & F). cbn [insert_all]. unfold af_insert.
          cbn [alt_freqs num_expected num_received lf_mf_follows]. rewrite F.
          change (cf_isValid (mkFreq 250 FM)) with false. cbn [andb].
          change ((250 =? 205) || (250 =? 224)) with false.
          change ((225 <=? 250) && (250 <=? 249)) with false. change (250 =? 250) with true. cbv iota. cbn [bind].
          eexists. split; [reflexivity|]. unfold af_isComplete. cbn [num_expected num_received]. rewrite B, C. lia.
        + injection Ex as _ Ex. apply app_eq_nil in Ex. destruct Ex; contradiction. }
    (* where the cut is *)
    destruct (Nat.lt_ge_cases (length pre) (length (freq_codes f))) as [Lt|Ge].
    + apply Short. exists (skipn (length pre) (freq_codes f)). split.
      * assert (P : firstn (length pre) (freq_codes f) = pre).
        { apply (f_equal (firstn (length pre))) in E. rewrite !firstn_app in E.
          replace (length pre - length (freq_codes f))%nat with 0%nat in E by lia.
          rewrite Nat.sub_diag in E. cbn [firstn] in E. rewrite !app_nil_r in E.
          rewrite firstn_all in E. exact E. }
        rewrite <- P at 1. apply firstn_skipn.
      * intros Z. apply (f_equal (@length N)) in Z. rewrite skipn_length in Z. cbn in Z. lia.
    + assert (P : exists pre', pre = freq_codes f ++ pre' /\ cs = pre' ++ rest).
      { exists (skipn (length (freq_codes f)) pre). split.
        - assert (F : firstn (length (freq_codes f)) pre = freq_codes f).
          { apply (f_equal (firstn (length (freq_codes f)))) in E. rewrite !firstn_app in E.
            rewrite Nat.sub_diag, firstn_all in E. cbn [firstn] in E. rewrite app_nil_r in E.
            replace (length (freq_codes f) - length pre)%nat with 0%nat in E by lia.
            cbn [firstn] in E. rewrite app_nil_r in E. symmetry. exact E. }
          rewrite <- F at 1. symmetry. apply firstn_skipn.
        - apply (f_equal (skipn (length (freq_codes f)))) in E. rewrite !skipn_app in E.
          rewrite Nat.sub_diag, skipn_all in E. cbn [app skipn] in E.
          replace (length (freq_codes f) - length pre)%nat with 0%nat in E by lia. exact E. }
      destruct P as (pre' & -> & E'). rewrite insert_all_app.
      destruct (insert_freq l n got f) as (l1 & E1 & H1); [lia|lia|exact Hf|exact Hat|].
      rewrite E1. cbn [bind]. apply (IH pre' rest l1 n (got ++ [freq_kHz f]));
        [exact E'|exact NE|exact NF|rewrite app_length; cbn; lia|exact Hn|exact H1].
Qed.
