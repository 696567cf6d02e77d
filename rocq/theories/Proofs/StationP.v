(* The group decoders never fail, keep the station well-formed, and touch only their own keys. *)
From Verif.Proofs Require Import Tac Numerals FreqP Schema.
From Verif.Model Require Import Util Float Group Options Tables Freq RdsString Rft Json Tmc Station.

(* Service keys for which the decryption shift is defined *)
Definition key_ok (k : ServiceKey) : Prop :=
  key_xorstart k < 32 /\ N.shiftl (key_xorval k) (key_xorstart k) < 0x100000000.
Definition keys_ok (d : TmcData) : Prop := forall i k, td_key d i = Some k -> key_ok k.

Definition all_wf (l : list (N * AltFreqList)) : Prop := Forall (fun p => af_wf (snd p)) l.

Definition tmc_ok (t : TMCService) : Prop := t_ltcc t <= 15 /\ all_wf (t_other_network_freqs t).

Definition st_ok (st : Station) : Prop :=
  af_wf (st_alt_freq_list st) /\ all_wf (st_eon_alt_freqs st) /\ tmc_ok (st_tmc st) /\
  length (st_rft_file st) = 16%nat /\ s_encoding (st_full_tdc st) = EncBasic.

Lemma tmc_init_ok : tmc_ok TMCService_init.
Proof. split; [cbn; lia|constructor]. Qed.

Lemma station_new_ok : forall ch, st_ok (Station_new ch).
Proof. intros ch. repeat split; try reflexivity; try (cbn; lia); constructor. Qed.

Lemma station_new_pi_ok : forall ch pi, st_ok (Station_new_pi ch pi).
Proof. intros ch pi. repeat split; try reflexivity; try (cbn; lia); constructor. Qed.

Lemma all_wf_find : forall l k, all_wf l ->
  af_wf (match find_code k l with Some x => x | None => af_init end).
Proof.
  induction l as [|[k' v] l IH]; intros k H; cbn [find_code]; [apply af_init_wf|].
  inversion H; subst. destruct (k =? k'); [assumption|apply IH; assumption].
Qed.

Lemma good_af_insert : forall l c, af_wf l -> good af_wf (af_insert l c).
Proof. intros l c H. exact (af_insert_wf l c H). Qed.

Lemma good_raw : forall l, af_wf l ->
  good (fun raw => length raw = N.to_nat (num_received l)) (af_getRawList l).
Proof.
  intros l (A & B & C). unfold af_getRawList. rewrite A.
  replace (num_received l <=? N.of_nat 25) with true by lia. apply good_ok.
  rewrite firstn_length, A. lia.
Qed.

Lemma arr_get_good : forall (A : Type) (l : list A) i, i < N.of_nat (length l) ->
  good (fun x => nth_error l (N.to_nat i) = Some x) (arr_get l i).
Proof.
  intros A l i H. unfold arr_get. destruct (nth_error l (N.to_nat i)) as [x|] eqn:E.
  - apply good_ok. reflexivity.
  - apply nth_error_None in E. lia.
Qed.

Lemma methodB_loop_good : forall n a tuned received i, received <= 25 -> length a = 25%nat ->
  N.odd received = true -> N.odd i = true -> good (fun _ => True) (methodB_loop n a tuned received i).
Proof.
  induction n as [|n IH]; intros a tuned received i R L O1 O2; cbn [methodB_loop]; [apply good_ok; exact I|].
  destruct (i <? received) eqn:E; [|apply good_ok; exact I].
  assert (i + 2 <= received).
  { destruct (N.eq_dec (i + 1) received) as [<-|]; [|lia].
    exfalso. rewrite N.add_1_r, N.odd_succ, <- N.negb_odd, O2 in O1. discriminate. }
  eapply good_bind; [apply arr_get_good; rewrite L; lia|]. intros f1 _.
  eapply good_bind; [apply arr_get_good; rewrite L; lia|]. intros f2 _.
  destruct (negb (f1 =? tuned) && negb (f2 =? tuned)); [apply good_ok; exact I|].
  apply IH; try assumption. rewrite N.odd_add, O2. reflexivity.
Qed.

(* With an even number received the last pair reads one slot past the received ones, still inside
   the array unless all 25 are received. *)
Lemma methodB_loop_good' : forall n a tuned received i, received <= 24 -> length a = 25%nat ->
  good (fun _ => True) (methodB_loop n a tuned received i).
Proof.
  induction n as [|n IH]; intros a tuned received i R L; cbn [methodB_loop]; [apply good_ok; exact I|].
  destruct (i <? received) eqn:E; [|apply good_ok; exact I].
  eapply good_bind; [apply arr_get_good; rewrite L; lia|]. intros f1 _.
  eapply good_bind; [apply arr_get_good; rewrite L; lia|]. intros f2 _.
  destruct (negb (f1 =? tuned) && negb (f2 =? tuned)); [apply good_ok; exact I|].
  apply IH; assumption.
Qed.

Lemma isMethodB_good : forall l, af_wf l ->
  good (fun b => b = true -> num_expected l mod 2 = 1 /\ 3 <= num_received l) (af_isMethodB l).
Proof.
  intros l (A & B & C). unfold af_isMethodB.
  destruct (negb (num_expected l mod 2 =? 1) || (num_received l <? 3)) eqn:E; [apply good_ok; discriminate|].
  apply orb_false_iff in E. destruct E as [E1 E2]. apply negb_false_iff in E1.
  eapply good_bind; [apply arr_get_good; rewrite A; lia|]. intros tuned _.
  assert (G : good (fun _ : bool => True) (methodB_loop (N.to_nat (num_received l)) (alt_freqs l) tuned (num_received l) 1)).
  { destruct (N.eq_dec (num_received l) 25) as [E25|N25].
    - apply methodB_loop_good; try assumption; try lia; try reflexivity. rewrite E25. reflexivity.
    - apply methodB_loop_good'; [lia|assumption]. }
  eapply good_imp; [exact G|]. intros b _ _. lia.
Qed.

Lemma methodB_pairs_good : forall n tuned freqs, length freqs = (2 * n)%nat ->
  good (fun _ => True) (methodB_pairs tuned freqs).
Proof.
  induction n as [|n IH]; intros tuned freqs L.
  - destruct freqs; [|discriminate]. apply good_ok. exact I.
  - destruct freqs as [|f1 [|f2 r]]; cbn [length] in L; try lia. cbn [methodB_pairs].
    eapply good_bind; [apply IH; lia|]. intros [afs regs] _.
    destruct (f1 <? f2); apply good_ok; exact I.
Qed.

Ltac bindj F R := apply (good_bind _ _ (conf F R)).
Ltac jstep :=
  match goal with
  | C : conf ?F ?R ?j |- good _ (bind (jset _ _ ?j) _) => bindj F R; [assign|clear C; intros ? C]
  | C : conf ?F ?R ?j |- good _ (bind (jpush _ _ ?j) _) => bindj F R; [assign|clear C; intros ? C]
  | C : conf ?F ?R ?j |- good _ (bind (jpush_all _ _ ?j) _) => bindj F R; [assign|clear C; intros ? C]
  | C : conf ?F ?R ?j |- good _ (bind (debug _ ?j) _) => bindj F R; [unfold debug; assign|clear C; intros ? C]
  | C : conf ?F ?R ?j |- good (conf _ _) (jset _ _ ?j) => assign
  | C : conf ?F ?R ?j |- good (conf _ _) (jpush _ _ ?j) => assign
  | C : conf ?F ?R ?j |- good (conf _ _) (jpush_all _ _ ?j) => assign
  | C : conf ?F ?R ?j |- good (conf _ _) (debug _ ?j) => unfold debug; assign
  | |- good (conf _ _) (Ok _) => apply good_ok; assumption
  end.

Definition gets (F : string -> bool) (R : string -> option json) (sj : Station * json) : Prop :=
  st_ok (fst sj) /\ conf F R (snd sj).

Ltac dif := match goal with |- good _ (if ?c then _ else _) => destruct c end.

Lemma decodePIN_good : forall F R path pin j, conf F R j ->
  (path = [] /\ writes F ["prog_item_number"%string; "prog_item_started"%string]) \/
  (path = ["other_network"%string] /\ writes F ["other_network"%string]) ->
  good (fun bj => conf F R (snd bj)) (decodePIN pin path j).
Proof.
  intros F R path pin j C [[-> W]|[-> W]]; unfold decodePIN; cbv zeta; cbn [app];
    (dif; [repeat jstep; apply good_ok; exact C|apply good_ok; exact C]).
Qed.

Lemma decodeBasics_good : forall F R o g j, conf F R j ->
  writes F ["group"%string; "tp"%string; "prog_type"%string] -> good (conf F R) (decodeBasics o g j).
Proof.
  intros F R o g j C W. unfold decodeBasics.
  assert (B : forall b (w : bool), good (conf F R)
    (j0 <- (if w then jset ["group"%string] (JStr (GroupType_str (g_type g))) j else Ok j) ;;
     j1 <- jset ["tp"%string] (JBool (getBool (g_get g b) 10)) j0 ;;
     jset ["prog_type"%string] (JStr (pty_string o (getBits 5 (g_get g b) 5))) j1)).
  { intros b w. bindj F R; [destruct w; jstep|clear C; intros j0 C]. repeat jstep. }
  dif; [jstep|]. cbv zeta.
  destruct (g_has g BLOCK2); [apply B|]. dif; [apply (B BLOCK4 true)|jstep].
Qed.

Lemma decodeAF_good : forall F R o l b3 j, conf F R j -> af_wf l ->
  writes F (["alt_frequencies_a"%string; "alt_frequencies_b"%string] ++
            if o_show_partial o then ["partial_alt_frequencies"%string] else []) ->
  good (fun lj => af_wf (fst lj) /\ conf F R (snd lj)) (decodeAF o l b3 j).
Proof.
  intros F R o l b3 j C Wl W. unfold decodeAF.
  eapply good_bind; [apply good_af_insert; exact Wl|]. clear l Wl. intros l Wl.
  eapply good_bind; [apply good_af_insert; exact Wl|]. clear l Wl. intros l Wl.
  destruct (af_isComplete l) eqn:Ec.
  - eapply good_bind; [apply good_raw; exact Wl|]. intros raw Lraw.
    eapply good_bind; [apply isMethodB_good; exact Wl|]. intros [|] HB.
    + destruct (HB eq_refl) as [H1 H2]. destruct raw as [|tuned rest]; [cbn in Lraw; lia|].
      unfold af_isComplete in Ec. apply andb_prop in Ec. destruct Ec as [Ec _].
      eapply good_bind.
      { apply (methodB_pairs_good (N.to_nat (num_received l / 2))). cbn [length] in Lraw. lia. }
      intros [afs regs] _. bindj F R.
      { dif; repeat jstep. }
      clear C. intros j1 C. apply good_ok. split; [apply af_clear_wf; exact Wl|exact C].
    + jstep. apply good_ok. split; [apply af_clear_wf; exact Wl|exact C].
  - destruct (o_show_partial o).
    + eapply good_bind; [apply good_raw; exact Wl|]. intros raw _. cbn [app] in W. jstep.
      apply good_ok. split; assumption.
    + apply good_ok. split; assumption.
Qed.

Ltac stok := match goal with H : st_ok ?s |- st_ok _ => destruct H as (?&?&?&?&?); repeat split; cbn; try assumption end.

Lemma set_af_ok : forall st l, st_ok st -> af_wf l -> st_ok (set_af st l).
Proof. intros st l (A&B&C&D&E) H. repeat split; cbn; try assumption; try apply H; apply C. Qed.
Lemma set_ps_ok : forall st v, st_ok st -> st_ok (set_ps st v).
Proof. intros st v H. exact H. Qed.
Lemma set_long_ps_ok : forall st v, st_ok st -> st_ok (set_long_ps st v).
Proof. intros st v H. exact H. Qed.
Lemma set_radiotext_ok : forall st v, st_ok st -> st_ok (set_radiotext st v).
Proof. intros st v H. exact H. Qed.
Lemma set_ert_ok : forall st v, st_ok st -> st_ok (set_ert st v).
Proof. intros st v H. exact H. Qed.
Lemma set_ptyname_ok : forall st v, st_ok st -> st_ok (set_ptyname st v).
Proof. intros st v H. exact H. Qed.
Lemma set_oda_group_ok : forall st v, st_ok st -> st_ok (set_oda_group st v).
Proof. intros st v H. exact H. Qed.
Lemma set_oda_pipe_ok : forall st v, st_ok st -> st_ok (set_oda_pipe st v).
Proof. intros st v H. exact H. Qed.
Lemma set_eon_ps_ok : forall st v, st_ok st -> st_ok (set_eon_ps st v).
Proof. intros st v H. exact H. Qed.
Lemma set_had_pi_ok : forall st v, st_ok st -> st_ok (set_had_pi st v).
Proof. intros st v H. exact H. Qed.
Lemma set_eon_af_ok : forall st k l, st_ok st -> af_wf l -> st_ok (set_eon_af st ((k, l) :: st_eon_alt_freqs st)).
Proof. intros st k l (A&B&C&D&E) H. split; [exact A|]. split; [constructor; assumption|]. split; [exact C|]. split; [exact D|exact E]. Qed.
Lemma set_tmc_ok : forall st t, st_ok st -> tmc_ok t -> st_ok (set_tmc st t).
Proof. intros st t (A&B&C&D&E) H. split; [exact A|]. split; [exact B|]. split; [exact H|]. split; [exact D|exact E]. Qed.
Lemma set_rft_ok : forall st f, st_ok st -> length f = 16%nat -> st_ok (set_rft st f).
Proof. intros st t (A&B&C&D&E) H. split; [exact A|]. split; [exact B|]. split; [exact C|]. split; [exact H|exact E]. Qed.
Lemma set_tdc_ok : forall st v, st_ok st -> s_encoding v = EncBasic -> st_ok (set_full_tdc st v).
Proof. intros st t (A&B&C&D&E) H. split; [exact A|]. split; [exact B|]. split; [exact C|]. split; [exact D|exact H]. Qed.

Definition part (o : Options) (k : string) : list string := if o_show_partial o then [k] else [].

Lemma decodeType0_good : forall F R env o st g j, conf F R j -> st_ok st ->
  writes F (["di"%string; "ta"%string; "is_music"%string; "alt_frequencies_a"%string; "alt_frequencies_b"%string;
             "ps"%string] ++
            if o_show_partial o then ["partial_alt_frequencies"%string; "partial_ps"%string; "debug"%string] else []) ->
  good (gets F R) (decodeType0 env o st g j).
Proof.
  intros F R env o st g j C So W. unfold decodeType0. cbv zeta. unfold getDICodeString.
  pose proof So as (Waf & _).
  jstep. jstep. jstep. destruct (negb (g_has g BLOCK3)).
  - eapply good_bind; [apply isMethodB_good; exact Waf|]. intros b _. apply good_ok. split; [|exact C].
    destruct b; [apply set_af_ok; [exact So|apply af_clear_wf; exact Waf]|exact So].
  - apply (good_bind _ _ (gets F R)).
    + dif; [|apply good_ok; split; assumption].
      eapply good_bind.
      { apply (decodeAF_good F R); [exact C|exact Waf|].
        eapply writes_sub; [exact W|]. destruct (o_show_partial o); reflexivity. }
      intros [l j1] [Wl C1]. apply good_ok. split; [apply set_af_ok; assumption|exact C1].
    + clear - W. intros [st j] [So C]. cbn [fst snd] in So, C.
      destruct (negb (g_has g BLOCK4)); [apply good_ok; split; assumption|].
      dif.
      * cbn [app] in W. jstep. apply good_ok. split; assumption.
      * destruct (o_show_partial o); [|apply good_ok; split; assumption].
        cbn [app] in W. destruct (s_str _ _); jstep; apply good_ok; split; assumption.
Qed.

Lemma country_good : forall cc ecc, cc <= 15 -> good (fun _ => True) (getCountryString cc ecc).
Proof.
  intros cc ecc H. unfold getCountryString.
  assert (L : forall row, In row (map snd country_codes) -> length row = 15%nat)
    by (apply (proj1 (Forall_forall (fun r => length r = 15%nat) (map snd country_codes))); repeat constructor).
  destruct (find_code ecc country_codes) as [row|] eqn:E; [|apply good_ok; exact I].
  assert (In row (map snd country_codes)).
  { clear L. induction country_codes as [|[k v] l IH]; [discriminate|]. cbn [find_code] in E.
    destruct (ecc =? k); [injection E as ->; left; reflexivity|right; apply IH; exact E]. }
  destruct (0 <? cc) eqn:Z; [|apply good_ok; exact I].
  destruct (nth_error row (N.to_nat (cc - 1))) eqn:En; [apply good_ok; exact I|].
  apply nth_error_None in En. rewrite (L row) in En by assumption. lia.
Qed.

Lemma getBits_le : forall n w s m, 2 ^ n = m -> getBits n w s < m.
Proof. intros n w s m <-. apply getBits_lt. Qed.

Lemma decodeType1_good : forall F R st g j, conf F R j ->
  writes F ["prog_item_number"%string; "prog_item_started"%string; "debug"%string; "has_linkage"%string;
            "country"%string; "tmc_id"%string; "language"%string; "slc_broadcaster_bits"%string; "ews"%string] ->
  good (conf F R) (decodeType1 st g j).
Proof.
  intros F R st g j C W. unfold decodeType1. cbv zeta.
  dif; [jstep|]. bindj F R.
  { dif; [jstep|]. eapply good_bind.
    - apply (decodePIN_good F R []); [exact C|]. left. split; [reflexivity|].
      eapply writes_sub; [exact W|reflexivity].
    - cbn [snd]. intros [ok j1] C1. cbn [snd] in C1. destruct ok; jstep. }
  clear C. intros j1 C. dif; [|jstep]. jstep.
  destruct (getBits 3 _ 12) as [|p]; [|do 3 (destruct p as [p|p|]; try jstep)].
  dif; [jstep|].
  eapply good_bind; [apply country_good; pose proof (getBits_le 4 (st_pi st) 12 16 eq_refl); lia|].
  intros c _. jstep.
Qed.

Lemma decodeType2_good : forall F R env o st g j, conf F R j -> st_ok st ->
  writes F (["radiotext"%string; "debug"%string] ++
            if o_show_partial o then ["rt_ab"%string; "partial_radiotext"%string] else []) ->
  good (gets F R) (decodeType2 env o st g j).
Proof.
  intros F R env o st g j C So W. unfold decodeType2. cbv zeta.
  dif; [apply good_ok; split; assumption|].
  cbn [rt_isABChanged]. cbv beta iota zeta.
  bindj F R.
  { destruct (o_show_partial o); cbn [app] in W; jstep. }
  clear C. intros j1 C.
  assert (D : forall x, good (gets F R) (j0 <- debug (env_what_iconv env) j1 ;; Ok (set_radiotext st x, j0))).
  { intros x. cbn [app] in W. jstep. apply good_ok; split; assumption. }
  assert (V : forall x t, good (gets F R) (j0 <- jset ["radiotext"%string] t j1 ;; Ok (set_radiotext st x, j0))).
  { intros x t. cbn [app] in W. jstep. apply good_ok; split; assumption. }
  assert (P : forall x (q : option bytes), good (gets F R)
    (if o_show_partial o then
       match q with
       | Some t => match rtrim t with
                   | [] => Ok (set_radiotext st x, j1)
                   | _ => j0 <- jset ["partial_radiotext"%string] (JStr t) j1 ;; Ok (set_radiotext st x, j0)
                   end
       | None => j0 <- debug (env_what_iconv env) j1 ;; Ok (set_radiotext st x, j0)
       end
     else Ok (set_radiotext st x, j1))).
  { intros x q. destruct (o_show_partial o); [|apply good_ok; split; assumption].
    destruct q as [t|]; [|apply D]. destruct (rtrim t); [apply good_ok; split; assumption|].
    cbn [app] in W. jstep. apply good_ok; split; assumption. }
  dif.
  - destruct (s_str _ _); [|apply D]. dif; [apply V|]. dif; [apply V|]. apply P.
  - dif; [apply V|]. apply P.
Qed.

Lemma receiveSystemGroup_good : forall F R t message j, conf F R j -> tmc_ok t ->
  writes F ["tmc"%string] ->
  good (fun tj => tmc_ok (fst tj) /\ conf F R (snd tj)) (receiveSystemGroup t message j).
Proof.
  intros F R t message j C T W. unfold receiveSystemGroup, sysinfo. cbv zeta. pose proof T as [T1 T2].
  dif.
  - jstep. bindj F R; [dif; jstep|clear C; intros j1 C]. jstep. jstep.
    apply good_ok. split; [split; assumption|exact C].
  - dif.
    + jstep. jstep. bindj F R; [dif; jstep|clear C; intros j1 C].
      apply good_ok. split; [|exact C]. split; [|exact T2]. cbn [t_ltcc fst].
      pose proof (getBits_le 4 message 0 16 eq_refl). lia.
    + dif; [|apply good_ok; split; assumption].
      dif; [|apply good_ok; split; assumption]. jstep.
      dif; [|apply good_ok; split; assumption].
      eapply good_bind; [apply country_good; exact T1|]. intros c _. jstep. apply good_ok; split; assumption.
Qed.

Lemma decodeType3A_good : forall F R st g j, conf F R j -> st_ok st ->
  writes F ["open_data_app"%string; "tmc"%string; "debug"%string] -> good (gets F R) (decodeType3A st g j).
Proof.
  intros F R st g j C So W. unfold decodeType3A. cbv zeta.
  dif; [apply good_ok; split; assumption|].
  dif; [apply good_ok; split; assumption|]. jstep. jstep.
  repeat (match goal with |- good _ (if ?c then _ else _) => destruct c end; [|]);
    try (apply good_ok; split; [exact So|exact C]).
  - eapply good_bind.
    + apply (receiveSystemGroup_good F R); [exact C|apply So|eapply writes_sub; [exact W|reflexivity]].
    + intros [t j2] [T C2]. apply good_ok. split; [apply set_tmc_ok; assumption|exact C2].
  - jstep. jstep. apply good_ok; split; assumption.
Qed.

Definition mjd_total : Prop :=
  forall mjd, 15079 <= mjd < 131072 -> good (fun _ => True) (mjd_to_date mjd).

Lemma decodeType4A_good : forall F R env g j, mjd_total -> conf F R j ->
  writes F ["clock_time"%string; "debug"%string] -> good (conf F R) (decodeType4A env g j).
Proof.
  intros F R env g j M C W. unfold decodeType4A. cbv zeta.
  dif; [jstep|]. destruct (_ <? 15079) eqn:E; [jstep|].
  eapply good_bind.
  { apply M. split; [lia|]. unfold getBits2. change 131072 with (2 ^ 17). rewrite N.land_ones. apply N.mod_upper_bound. discriminate. }
  intros [[year month] day] _. dif; jstep.
Qed.

Lemma s_set_encoding : forall u s p b, s_encoding (s_set u s p b) = s_encoding s.
Proof.
  intros u s p b. unfold s_set. destruct (_ <=? _); [reflexivity|]. cbv zeta.
  destruct (s_isComplete _); [|reflexivity]. destruct (s_str _ _); reflexivity.
Qed.

Lemma s_set2_encoding : forall u s p a b, s_encoding (s_set2 u s p a b) = s_encoding s.
Proof. intros u s p a b. unfold s_set2. rewrite !s_set_encoding. reflexivity. Qed.

Lemma str_basic_good : forall env s, s_encoding s = EncBasic -> good (fun _ => True) (str_basic env s).
Proof. intros env s H. unfold str_basic, s_str. rewrite H. apply good_ok. exact I. Qed.

Lemma decodeType5_good : forall F R env st g j, conf F R j -> st_ok st ->
  writes F ["transparent_data"%string] -> good (gets F R) (decodeType5 env st g j).
Proof.
  intros F R env st g j C So W. unfold decodeType5, tdata. cbv zeta. pose proof So as (_ & _ & _ & _ & En). jstep.
  dif.
  - jstep. bindj F R.
    { dif; [|jstep].
      eapply good_bind; [apply str_basic_good; rewrite !s_set2_encoding; exact En|]. intros x _. repeat jstep. }
    clear C. intros j1 C.
    eapply good_bind; [apply str_basic_good; rewrite !s_set2_encoding; reflexivity|]. intros x _. jstep.
    apply good_ok. split; [|exact C]. apply set_tdc_ok; [exact So|]. rewrite !s_set2_encoding. exact En.
  - jstep. eapply good_bind; [apply str_basic_good; rewrite !s_set2_encoding; reflexivity|]. intros x _. jstep.
    apply good_ok. split; assumption.
Qed.

Lemma decodeType6_good : forall F R g j, conf F R j -> writes F ["in_house_data"%string] ->
  good (conf F R) (decodeType6 g j).
Proof.
  intros F R g j C W. unfold decodeType6. cbv zeta. jstep.
  dif; [destruct (g_has g BLOCK3); [|jstep]|]; try jstep;
    try (destruct (g_has g BLOCK4); jstep).
Qed.

Lemma decodeType10A_good : forall F R env st g j, conf F R j -> st_ok st -> writes F ["pty_name"%string] ->
  good (gets F R) (decodeType10A env st g j).
Proof.
  intros F R env st g j C So W. unfold decodeType10A. cbv zeta.
  dif; [apply good_ok; split; assumption|].
  dif; [jstep|]; apply good_ok; split; assumption.
Qed.

Lemma decodeType14_good : forall F R env o st g j, conf F R j -> st_ok st ->
  writes F ["other_network"%string; "debug"%string] -> good (gets F R) (decodeType14 env o st g j).
Proof.
  intros F R env o st g j C So W. unfold decodeType14, on. cbv zeta.
  dif; [apply good_ok; split; assumption|]. jstep. jstep.
  dif; [jstep; apply good_ok; split; assumption|].
  dif; [apply good_ok; split; assumption|].
  dif. { dif; [jstep|]; apply good_ok; split; assumption. }
  dif.
  { eapply good_bind; [apply good_af_insert, all_wf_find, So|]. intros l1 W1.
    eapply good_bind; [apply good_af_insert; exact W1|]. clear l1 W1. intros l W1.
    destruct (af_isComplete l).
    - eapply good_bind; [apply good_raw; exact W1|]. intros raw _. jstep. apply good_ok. split; [|exact C].
      apply set_eon_af_ok; [exact So|apply af_clear_wf; exact W1].
    - apply good_ok. split; [|exact C]. apply set_eon_af_ok; assumption. }
  dif. { destruct (cf_isValid _); [jstep|]; apply good_ok; split; assumption. }
  dif. { jstep. dif; [jstep|]; apply good_ok; split; assumption. }
  dif. { jstep. jstep. apply good_ok; split; assumption. }
  dif.
  { dif; [apply good_ok; split; assumption|].
    eapply good_bind.
    - apply (decodePIN_good F R ["other_network"%string]); [exact C|]. right. split; [reflexivity|].
      eapply writes_sub; [exact W|reflexivity].
    - intros [b j2] C2. apply good_ok. split; assumption. }
  dif; jstep; apply good_ok; split; assumption.
Qed.

Lemma decodeType15A_good : forall F R env o st g j, conf F R j -> st_ok st ->
  writes F (["long_ps"%string] ++ if o_show_partial o then ["partial_long_ps"%string; "debug"%string] else []) ->
  good (gets F R) (decodeType15A env o st g j).
Proof.
  intros F R env o st g j C So W. unfold decodeType15A. cbv zeta.
  dif; [cbn [app] in W; jstep; apply good_ok; split; assumption|].
  destruct (o_show_partial o); [|apply good_ok; split; assumption].
  cbn [app] in W. destruct (s_str _ _); jstep; apply good_ok; split; assumption.
Qed.

Lemma decodeType15B_good : forall F R g j, conf F R j ->
  writes F ["di"%string; "ta"%string; "is_music"%string] -> good (conf F R) (decodeType15B g j).
Proof. intros F R g j C W. unfold decodeType15B, getDICodeString. cbv zeta. repeat jstep. Qed.

Lemma rtplus_tag_good : forall F R rt key ct start len j, conf F R j ->
  key = "radiotext_plus"%string \/ key = "ert_plus"%string -> writes F [key] ->
  good (conf F R) (rtplus_tag rt [key] ct start len j).
Proof.
  intros F R rt key ct start len j C K W. unfold rtplus_tag. cbv zeta.
  destruct (s_getLastCompleteSubstring _ _ _); [jstep|]. dif; [jstep|].
  cbn [app]. destruct K as [-> | ->]; jstep.
Qed.

Lemma parseRadioTextPlus_good : forall F R g rt key j, conf F R j ->
  key = "radiotext_plus"%string \/ key = "ert_plus"%string -> writes F [key] ->
  good (fun rj => conf F R (snd rj)) (parseRadioTextPlus g rt [key] j).
Proof.
  intros F R g rt key j C K W. unfold parseRadioTextPlus. cbv zeta. cbn [app].
  bindj F R. { destruct K as [-> | ->]; jstep. } clear C. intros j1 C.
  bindj F R. { destruct K as [-> | ->]; jstep. } clear C. intros j2 C.
  bindj F R. { destruct (g_has g BLOCK3); [apply rtplus_tag_good; assumption|jstep]. } clear C. intros j3 C.
  bindj F R. { dif; [apply rtplus_tag_good; assumption|jstep]. } clear C. intros j4 C.
  apply good_ok. exact C.
Qed.

Lemma parseEnhancedRT_good : forall F R env st g j, conf F R j -> st_ok st -> writes F ["enhanced_radiotext"%string] ->
  good (gets F R) (parseEnhancedRT env st g j).
Proof.
  intros F R env st g j C So W. unfold parseEnhancedRT. cbv zeta.
  dif; [jstep|]; apply good_ok; split; assumption.
Qed.

Lemma parseDAB_good : forall F R g j, conf F R j -> writes F ["dab"%string; "debug"%string] ->
  good (conf F R) (parseDAB g j).
Proof.
  intros F R g j C W. unfold parseDAB. cbv zeta. destruct (getBool _ 4); [jstep|]. jstep. jstep.
  bindj F R; [destruct (find_code _ _); jstep|]. clear C. intros j1 C. jstep.
Qed.

Lemma m_json_shape : forall d m, m_json d m = JNull \/ exists x, m_json d m = JObj x.
Proof. intros d m. unfold m_json. destruct (_ || _)%bool; [left; reflexivity|right; eexists; reflexivity]. Qed.

Lemma decodeLocation_good : forall F R db ltn has lcd neg ext j, conf F R j -> writes F ["tmc"%string] ->
  good (conf F R) (decodeLocation db ltn has lcd neg ext j).
Proof.
  intros F R db ltn has lcd neg ext j C W. unfold decodeLocation. cbv zeta.
  dif; [jstep|]. destruct (db_points db lcd) as [pt|]; [|jstep]. jstep.
  bindj F R.
  { destruct (walk _ _ _ _) as [|p0 [|p1 r]]; try jstep.
    destruct (pt_name1 p0); [jstep|]. destruct (pt_name1 (last _ _)); [jstep|]. repeat jstep. }
  clear C. intros j1 C. destruct (db_roads db _) as [road|]; [|jstep].
  bindj F R. { destruct (road_number road); jstep. }
  clear C. intros j2 C. destruct (road_name road); [destruct (pt_road_name pt)|]; jstep.
Qed.

Lemma m_decrypt_good : forall m k, key_ok k -> good (fun _ => True) (m_decrypt m k).
Proof.
  intros m k [A B]. unfold m_decrypt. dif; [apply good_ok; exact I|].
  replace (32 <=? key_xorstart k) with false by lia.
  replace (0x100000000 <=? N.shiftl (key_xorval k) (key_xorstart k)) with false by lia.
  apply good_ok. exact I.
Qed.

Lemma finish_message_good : forall F R d s m j, keys_ok d -> conf F R j -> writes F ["tmc"%string] ->
  good (conf F R) (finish_message d s m j).
Proof.
  intros F R d s m j K C W. unfold finish_message. apply (good_bind _ _ (fun _ => True)).
  { destruct (t_is_encrypted s); [|apply good_ok; exact I].
    destruct (td_key d (t_encid s)) eqn:E; [apply m_decrypt_good; apply (K _ _ E)|apply good_ok; exact I]. }
  clear m. intros m _. destruct (jempty _); [jstep|].
  bindj F R.
  { eapply jset_conf; [exact C|reflexivity|discriminate|cbn [head_key hd]; fkey|].
    destruct (m_json_shape d m) as [-> | (x & ->)]; exact I. }
  clear C. intros j1 C. apply decodeLocation_good; assumption.
Qed.

Lemma receiveTuningInfo_good : forall F R u t x y z j, conf F R j -> tmc_ok t ->
  writes F ["tmc"%string; "debug"%string] ->
  good (fun tj => tmc_ok (fst tj) /\ conf F R (snd tj)) (receiveTuningInfo u t x y z j).
Proof.
  intros F R u t x y z j C T W. unfold receiveTuningInfo, othernet. cbv zeta. pose proof T as [T1 T2].
  dif.
  { bindj F R; [dif; jstep|]. clear C. intros j1 C. apply good_ok. split; assumption. }
  dif.
  { eapply good_bind; [apply good_af_insert, all_wf_find, T2|]. intros l1 W1.
    eapply good_bind; [apply good_af_insert; exact W1|]. clear l1 W1. intros l W1. jstep.
    eapply good_bind; [apply good_raw; exact W1|]. intros raw _. jstep. apply good_ok. split; [|exact C].
    split; [exact T1|constructor]. }
  dif. { dif; repeat jstep; apply good_ok; split; assumption. }
  dif. { repeat jstep. apply good_ok; split; assumption. }
  jstep. apply good_ok; split; assumption.
Qed.

Lemma receiveUserGroup_good : forall F R d u t x y z j, keys_ok d -> conf F R j -> tmc_ok t ->
  writes F ["tmc"%string; "debug"%string] ->
  good (fun tj => tmc_ok (fst tj) /\ conf F R (snd tj)) (receiveUserGroup d u t x y z j).
Proof.
  intros F R d u t x y z j K C T W. unfold receiveUserGroup, sysinfo. cbv zeta.
  assert (W' : writes F ["tmc"%string]) by (eapply writes_sub; [exact W|reflexivity]).
  dif; [apply good_ok; split; assumption|].
  dif. { do 3 jstep. apply good_ok. split; assumption. }
  destruct (getBool x 4); [apply receiveTuningInfo_good; assumption|].
  dif; [apply good_ok; split; assumption|].
  destruct (getBool x 3).
  { bindj F R; [apply finish_message_good; assumption|]. clear C. intros j1 C. apply good_ok; split; assumption. }
  destruct (m_is_complete _).
  - bindj F R; [apply finish_message_good; assumption|]. clear C. intros j1 C. apply good_ok; split; assumption.
  - apply good_ok; split; assumption.
Qed.

Lemma receiveTMC_good : forall F R env st g j, keys_ok (env_tmc env) -> conf F R j -> st_ok st ->
  writes F ["tmc"%string; "debug"%string] -> good (gets F R) (receiveTMC env st g j).
Proof.
  intros F R env st g j K C So W. unfold receiveTMC. dif; [|apply good_ok; split; assumption].
  eapply good_bind; [apply (receiveUserGroup_good F R); try eassumption; apply So|].
  intros [t j1] [T C1]. apply good_ok. split; [apply set_tmc_ok; assumption|exact C1].
Qed.

Lemma decodeODAGroup_good : forall F R env st g j, keys_ok (env_tmc env) -> conf F R j -> st_ok st ->
  writes F ["unknown_oda"%string; "dab"%string; "radiotext_plus"%string; "ert_plus"%string;
            "enhanced_radiotext"%string; "tmc"%string; "debug"%string] ->
  good (gets F R) (decodeODAGroup env st g j).
Proof.
  intros F R env st g j K C So W. unfold decodeODAGroup. cbv zeta.
  destruct (find_type _ _) as [app|]; [|jstep; apply good_ok; split; assumption].
  dif.
  { bindj F R; [apply parseDAB_good; [exact C|eapply writes_sub; [exact W|reflexivity]]|].
    clear C. intros j1 C. apply good_ok; split; assumption. }
  dif.
  { eapply good_bind; [apply (parseRadioTextPlus_good F R); [exact C|left; reflexivity|eapply writes_sub; [exact W|reflexivity]]|].
    intros [rt j1] C1. apply good_ok; split; assumption. }
  dif.
  { eapply good_bind; [apply (parseRadioTextPlus_good F R); [exact C|right; reflexivity|eapply writes_sub; [exact W|reflexivity]]|].
    intros [rt j1] C1. apply good_ok; split; assumption. }
  dif. { apply parseEnhancedRT_good; try assumption. eapply writes_sub; [exact W|reflexivity]. }
  dif. { apply receiveTMC_good; try assumption. eapply writes_sub; [exact W|reflexivity]. }
  repeat jstep. apply good_ok; split; assumption.
Qed.

Lemma arr_set_good : forall (A : Type) (l : list A) i x, i < N.of_nat (length l) ->
  good (fun l' => length l' = length l) (arr_set l i x).
Proof.
  intros A l i x H. unfold arr_set. replace (i <? N.of_nat (length l)) with true by lia.
  apply good_ok. clear H. revert i. generalize (N.to_nat) as f. intros f i. generalize (f i). clear.
  induction l as [|y l IH]; intros [|n]; cbn; auto.
Qed.

Lemma decodeC_rft_good : forall F R st g pipe j, conf F R j -> st_ok st -> pipe < 16 ->
  writes F ["open_data_app"%string; "rft"%string] -> good (gets F R) (decodeC_rft st g pipe j).
Proof.
  intros F R st g pipe j C So P W. unfold decodeC_rft, oda, rftd. cbv zeta.
  pose proof So as (_ & _ & _ & L & _).
  bindj F R; [destruct (find_code _ _); jstep|]. clear C. intros j1 C.
  jstep. jstep. jstep.
  eapply good_bind; [apply arr_get_good; rewrite L; lia|]. intros f _. jstep.
  apply (good_bind _ _ (fun fj : RFTFile * json => conf F R (snd fj))).
  { destruct (rft_hasNewCompleteFile _); [|apply good_ok; exact C].
    destruct (rft_getBase64Data _) as [text f']. jstep. apply good_ok; exact C. }
  clear C. intros [f' j2] C. cbn [snd] in C.
  eapply good_bind; [apply arr_set_good; rewrite L; lia|]. intros files Lf. apply good_ok.
  split; [apply set_rft_ok; [exact So|rewrite Lf; exact L]|exact C].
Qed.

Lemma decodeC_assign_good : forall F R st g ch j, conf F R j -> st_ok st ->
  writes F ["open_data_app"%string; "rft"%string; "debug"%string] -> good (gets F R) (decodeC_assign st g ch j).
Proof.
  intros F R st g ch j C So W. unfold decodeC_assign, oda, rfti, rftc. cbv zeta.
  pose proof So as (_ & _ & _ & L & _). jstep. jstep. jstep.
  destruct (ch <? 16) eqn:E16; [|jstep; apply good_ok; split; assumption].
  cbn [st_rft_file set_oda_pipe].
  dif.
  { eapply good_bind; [apply arr_get_good; rewrite L; lia|]. intros f _.
    eapply good_bind; [apply arr_set_good; rewrite L; lia|]. intros files Lf. repeat jstep. apply good_ok.
    split; [apply set_rft_ok; [exact So|rewrite Lf; exact L]|exact C]. }
  dif.
  { eapply good_bind; [apply arr_get_good; rewrite L; lia|]. intros f _.
    apply (good_bind _ _ (fun _ => True)).
    { unfold rft_receiveCRC. cbn [crc_address_raw].
      replace (getBits 9 (g_get g BLOCK3) 0 <? kMaxNumCRCs) with true; [apply good_ok; exact I|].
      pose proof (getBits_le 9 (g_get g BLOCK3) 0 512 eq_refl). unfold kMaxNumCRCs. lia. }
    intros f' _.
    eapply good_bind; [apply arr_set_good; rewrite L; lia|]. intros files Lf.
    assert (S' : st_ok (set_rft (set_oda_pipe st ((ch, g_get g BLOCK2) :: st_oda_app_for_pipe st)) files))
      by (apply set_rft_ok; [exact So|rewrite Lf; exact L]).
    dif; [|dif]; repeat jstep; apply good_ok; split; assumption. }
  dif; jstep; apply good_ok; split; assumption.
Qed.

Lemma decodeC_good : forall F R st g j, conf F R j -> st_ok st ->
  writes F ["open_data_app"%string; "rft"%string; "debug"%string] -> good (gets F R) (decodeC st g j).
Proof.
  intros F R st g j C So W. unfold decodeC, oda. cbv zeta.
  dif; [apply good_ok; split; assumption|].
  dif; [jstep; apply good_ok; split; assumption|].
  dif.
  { apply decodeC_rft_good; try assumption; [|eapply writes_sub; [exact W|reflexivity]].
    change 15 with (N.ones 4). rewrite N.land_ones. apply N.mod_upper_bound. discriminate. }
  dif; [repeat jstep; apply good_ok; split; assumption|].
  dif.
  { dif; [apply decodeC_assign_good; assumption|]. jstep. apply good_ok; split; assumption. }
  repeat jstep. apply good_ok; split; assumption.
Qed.

(* Every key the type-specific decoders write *)
Definition decoder_keys (o : Options) : list string :=
  ["di"; "ta"; "is_music"; "alt_frequencies_a"; "alt_frequencies_b"; "ps"; "debug";
   "prog_item_number"; "prog_item_started"; "has_linkage"; "country"; "tmc_id"; "language";
   "slc_broadcaster_bits"; "ews"; "radiotext"; "open_data_app"; "tmc"; "clock_time"; "pty_name";
   "other_network"; "unknown_oda"; "dab"; "radiotext_plus"; "ert_plus"; "enhanced_radiotext"; "rft";
   "transparent_data"; "in_house_data"; "long_ps"]%string ++
  (if o_show_partial o then ["partial_alt_frequencies"; "partial_ps"; "rt_ab"; "partial_radiotext"; "partial_long_ps"]%string
   else []).

Lemma decodeByType_good : forall F R env o st g j, mjd_total -> keys_ok (env_tmc env) -> conf F R j -> st_ok st ->
  writes F (decoder_keys o) -> good (gets F R) (decodeByType env o st g j).
Proof.
  intros F R env o st g j M K C So W. unfold decodeByType. cbv zeta.
  assert (Sub : forall keys, forallb (fun k => existsb (String.eqb k) (decoder_keys o)) keys = true -> writes F keys)
    by (intros keys H; eapply writes_sub; [exact W|exact H]).
  assert (Keep : forall r, good (conf F R) r -> good (gets F R) (x <- r ;; Ok (st, x))).
  { intros r G. eapply good_bind; [exact G|]. intros x Cx. apply good_ok. split; assumption. }
  assert (Wp : forall k k', forallb (fun k => existsb (String.eqb k) (decoder_keys o)) k = true ->
              (o_show_partial o = true -> forallb (fun k => existsb (String.eqb k) (decoder_keys o)) k' = true) ->
              writes F (k ++ if o_show_partial o then k' else [])).
  { intros k k' H H'. apply Sub. rewrite forallb_app, H. destruct (o_show_partial o); [apply H'; reflexivity|reflexivity]. }
  assert (Wd : forall b, (if b : bool then True else True) -> True) by trivial.
  assert (Wdec : forall keys, forallb (fun k => existsb (String.eqb k) (decoder_keys o)) keys =
     forallb (fun k => existsb (String.eqb k) (decoder_keys o)) keys) by reflexivity.
  clear Wd Wdec.
  dif.
  { apply decodeC_good; try assumption. apply Sub. destruct (o_show_partial o) eqn:Ep; unfold decoder_keys; rewrite Ep; reflexivity. }
  dif.
  { apply decodeType0_good; try assumption. apply Wp; [|intros Ep]; unfold decoder_keys.
    - destruct (o_show_partial o); reflexivity.
    - rewrite Ep. reflexivity. }
  dif.
  { apply Keep, decodeType1_good; try assumption. apply Sub. unfold decoder_keys. destruct (o_show_partial o); reflexivity. }
  dif.
  { apply decodeType2_good; try assumption. apply Wp; [|intros Ep]; unfold decoder_keys.
    - destruct (o_show_partial o); reflexivity.
    - rewrite Ep. reflexivity. }
  dif.
  { apply decodeType3A_good; try assumption. apply Sub. unfold decoder_keys. destruct (o_show_partial o); reflexivity. }
  dif.
  { apply Keep, decodeType4A_good; try assumption. apply Sub. unfold decoder_keys. destruct (o_show_partial o); reflexivity. }
  dif.
  { apply decodeType10A_good; try assumption. apply Sub. unfold decoder_keys. destruct (o_show_partial o); reflexivity. }
  dif.
  { apply decodeType14_good; try assumption. apply Sub. unfold decoder_keys. destruct (o_show_partial o); reflexivity. }
  dif.
  { apply Keep, decodeType15B_good; try assumption. apply Sub. unfold decoder_keys. destruct (o_show_partial o); reflexivity. }
  assert (Woda : writes F ["unknown_oda"%string; "dab"%string; "radiotext_plus"%string; "ert_plus"%string;
            "enhanced_radiotext"%string; "tmc"%string; "debug"%string])
    by (apply Sub; unfold decoder_keys; destruct (o_show_partial o); reflexivity).
  assert (Wdbg : writes F ["debug"%string]) by (eapply writes_sub; [exact Woda|reflexivity]).
  destruct (find_type _ _); [apply decodeODAGroup_good; assumption|].
  dif.
  { apply decodeType5_good; try assumption. apply Sub. unfold decoder_keys. destruct (o_show_partial o); reflexivity. }
  dif.
  { apply Keep, decodeType6_good; try assumption. apply Sub. unfold decoder_keys. destruct (o_show_partial o); reflexivity. }
  dif. { apply Keep. clear W. jstep. }
  dif. { apply receiveTMC_good; try assumption. eapply writes_sub; [exact Woda|reflexivity]. }
  dif. { apply Keep. clear W. jstep. }
  dif.
  { apply decodeType15A_good; try assumption. apply Wp; [|intros Ep]; unfold decoder_keys.
    - destruct (o_show_partial o); reflexivity.
    - rewrite Ep. reflexivity. }
  apply decodeODAGroup_good; assumption.
Qed.
