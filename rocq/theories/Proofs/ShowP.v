(* The line of a group shows what its decoder computed; clock time. *)
From Verif.Proofs Require Import Tac Numerals FreqP Utf8P JsonP Schema StationP TextP CleanP ClockP BlerP UpdateP SessionP LineP FrameP ChannelP LinesP HistoryP HostP.
From Verif.Model Require Import Util Float Group BlockSync Options Tables Json Tmc Station Channel.
From Verif.Spec Require Import Numerals Unicode JsonText Calendar Session Identity Quality Clock Host.

Local Open Scope string_scope.
Local Open Scope N_scope.

Lemma host_text_txt : forall env, host_text env -> env_txt env.
Proof.
  intros env (A & B & C & D & E & F). split; [apply valid_is_utf8; exact A|]. split.
  - intros f t s H. apply valid_is_utf8. apply (B f t s H).
  - split; [intros c e H; destruct (C c e H); split; apply valid_is_utf8; assumption|].
    split; [intros c s H; apply valid_is_utf8; apply (D c s H)|].
    split; intros l c r H; [destruct (E l c r H)|destruct (F l c r H)]; split; apply valid_is_utf8; assumption.
Qed.

Definition ch_fine (c : Channel) : Prop := ch_ok c /\ st_clean (ch_station c).

Lemma tuned_clean : forall c g, st_clean (ch_station c) -> st_clean (tuned c g).
Proof.
  intros c g H. unfold tuned. destruct (g_hasPI g); [|exact H]. destruct (snd _); try exact H. apply station_new_pi_clean.
Qed.

Lemma process_fine : forall env o now c g w c' line, host_ok env -> env_txt env -> ch_fine c -> g_has_bler g = false ->
  processGroup env o now c g w = Ok (c', line) -> ch_fine c'.
Proof.
  intros env o now c g w c' line H E [Hc Sc] Hb P. destruct (host_env env H) as [Eo _].
  split; [apply (process_kept _ _ _ _ _ _ _ _ Eo Hc Hb P)|].
  rewrite process_eq in P. cbv zeta in P. set (g' := prepared o now c g w) in *.
  destruct (o_output_type o); [injection P as <- _; apply tuned_clean; exact Sc|].
  destruct (updateAndPrint env o (tuned c g') g') as [[st l]| |] eqn:U; cbn [bind] in P; try discriminate. injection P as <- <-.
  cbn [ch_station]. rewrite update_eq in U. destruct (silent (tuned c g') g').
  - assert (X : Ok (had (tuned c g') g', @None bytes) = Ok (st, l)) by (destruct (st_has_pi _ && o_streams o); exact U).
    injection X as <- _. apply had_clean, tuned_clean, Sc.
  - destruct (prepared_bler o now c g w Hc Hb) as [_ B]. fold g' in B. rewrite prelude_eq in U by exact B. cbn [bind] in U.
    fold (decoded env o (tuned c g') g') in U. pose proof (decoded_st_clean env o (tuned c g') g' E (tuned_clean c g' Sc)) as K.
    destruct (decoded env o (tuned c g') g') as [[st2 j]| |]; cbn [bind] in U; try discriminate.
    destruct (print_json env j); cbn [bind] in U; try discriminate. injection U as <- _. apply (K _ eq_refl).
Qed.

Lemma created_fine : forall o c, created o c -> ch_fine c.
Proof.
  intros o c H. split; [apply (created_ok o c H)|]. destruct H as [(w & ->)|(pi & ->)]; [apply station_new_clean|apply station_new_pi_clean].
Qed.

Lemma reachable_fine : forall env o c, host_ok env -> env_txt env -> reachable env o c -> ch_fine c.
Proof.
  intros env o c H E (c0 & calls & lines & Cr & Po & S). destruct (host_env env H) as [Eo _].
  destruct (session_generic env o ch_fine (fun _ => True) (fun c x => proj1 x)
    (fun c w s x y => conj (set_stream_ok c w s (proj1 x) y) (proj2 x))
    (fun c t x => x) (fun c x => x)) with (calls := calls) (c := c0) as ([c1 l1] & S1 & F & _); [|exact Po|apply (created_fine o c0 Cr)|].
  - intros now d g w Hd Hb Hw. destruct (process_good env o now d g w Eo (proj1 Hd) Hb) as ([d1 l1] & P & _). rewrite P.
    apply good_ok. split; [apply (process_fine _ _ _ _ _ _ _ _ H E Hd Hb P)|]. destruct l1; repeat constructor.
  - rewrite S in S1. injection S1 as <- _. exact F.
Qed.

(* The line of a group is what was decoded *)
Lemma process_shows : forall env o now c g w c' line, host_ok env -> env_txt env -> o_output_type o = OutJSON -> ch_fine c ->
  g_has_bler g = false -> processGroup env o now c g w = Ok (c', Some line) ->
  let g' := prepared o now c g w in
  raw_group (tuned c g') g' = false \/ g_has_type g' = false ->
  exists j, decoded env o (tuned c g') g' = Ok (ch_station c', j) /\
    (forall p, line_at p line = option_map (value_of (env_float env)) (jget p j)).
Proof.
  intros env o now c g w c' line H E OJ [Hc Sc] Hb P g' R. destruct (host_env env H) as [Eo FL].
  destruct (process_header _ _ _ _ _ _ _ _ H OJ Hc Hb P) as [S _]. fold g' in S.
  destruct (process_spoken env o now c g w OJ Eo Hc Hb S) as (st' & j & line' & D & P' & _ & Pr & _). fold g' in D.
  rewrite P in P'. injection P' as -> ->. exists j. split; [exact D|].
  destruct (decoded_clean env o (tuned c g') g' E (tuned_clean c g' Sc) R _ D) as [_ C2]. cbn [snd] in C2.
  intros p. unfold print_json, json_print in Pr. unfold clean in C2. rewrite C2 in Pr. injection Pr as <-.
  rewrite line_at_dump by exact FL. destruct (jget p j); reflexivity.
Qed.

Lemma jset_top : forall k v m, jset [k] v (JObj m) = Ok (JObj (obj_put k v m)).
Proof. reflexivity. Qed.
Lemma find_put : forall k v m, obj_find k (obj_put k v m) = Some v.
Proof.
  intros k v. induction m as [|[k0 v0] m IH]; cbn [obj_put obj_find]; [rewrite String.eqb_refl; reflexivity|].
  destruct (String.eqb k k0) eqn:E; cbn [obj_find]; rewrite E; [reflexivity|exact IH].
Qed.

(* ---- clock time ---- *)
Lemma clock_fields : forall g day hour minute west units, carries_clock g day hour minute west units ->
  g_has g BLOCK3 && g_has g BLOCK4 = true /\
  getBits2 17 (g_get g BLOCK2) (g_get g BLOCK3) 1 = day /\ getBits2 5 (g_get g BLOCK3) (g_get g BLOCK4) 12 = hour /\
  getBits 6 (g_get g BLOCK4) 6 = minute /\ getBool (g_get g BLOCK4) 5 = west /\ getBits 5 (g_get g BLOCK4) 0 = units.
Proof.
  intros g day hour minute west units (Hd & Hh & Hm & Hu & R2 & R3 & R4 & B2 & E2 & E3 & E4).
  unfold g_has, g_get. cbn [g_block]. rewrite R3, R4. split; [reflexivity|].
  assert (L4 : blk_data (g_b4 g) < 2 ^ 16) by (rewrite E4; change (2 ^ 16) with 65536; change (2 ^ 5) with 32 in *; change (2 ^ 6) with 64 in *; destruct west; lia).
  assert (L3 : blk_data (g_b3 g) < 2 ^ 16) by (rewrite E3; change (2 ^ 16) with 65536; change (2 ^ 15) with 32768; change (2 ^ 5) with 32 in *; lia).
  rewrite !getBits2_arith, !getBits_arith, getBool_testbit by assumption.
  rewrite N.testbit_eqb. 
  change (2 ^ 17) with 131072 in *; change (2 ^ 16) with 65536 in *; change (2 ^ 15) with 32768 in *; change (2 ^ 12) with 4096; change (2 ^ 6) with 64 in *;
    change (2 ^ 5) with 32 in *; change (2 ^ 1) with 2; change (2 ^ 0) with 1.
  rewrite E3, E4 in *. generalize dependent (blk_data (g_b2 g)). intros b2 B2 E2.
  repeat split.
  - destruct west; lia.
  - destruct west; lia.
  - destruct west; lia.
  - destruct west; [apply N.eqb_eq|apply N.eqb_neq]; lia.
  - destruct west; lia.
Qed.

Definition Zupto (a : Z) (n : nat) : list Z := map (fun k => (a + Z.of_nat k)%Z) (seq 0 n).
Lemma Zupto_in : forall a n z, (a <= z < a + Z.of_nat n)%Z -> In z (Zupto a n).
Proof. intros a n z H. apply in_map_iff. exists (Z.to_nat (z - a)). split; [lia|]. apply in_seq. lia. Qed.

Definition bytes_eqb (a b : bytes) : bool := if list_eq_dec N.eq_dec a b then true else false.
Lemma bytes_eqb_eq : forall a b, bytes_eqb a b = true -> a = b.
Proof. intros a b. unfold bytes_eqb. destruct (list_eq_dec N.eq_dec a b); [auto|discriminate]. Qed.

Lemma two_sweep : forallb (fun z => bytes_eqb (fmt_0d 2 z) (two_digits z)) (Zupto 0 100) = true.
Proof. vm_compute. reflexivity. Qed.
Lemma fmt_two : forall z, (0 <= z <= 99)%Z -> fmt_0d 2 z = two_digits z.
Proof. intros z H. apply bytes_eqb_eq. pose proof two_sweep as W. rewrite forallb_forall in W. apply W, Zupto_in. lia. Qed.
Lemma four_sweep : forallb (fun z => bytes_eqb (fmt_0d 4 z) (four_digits z)) (Zupto 1850 300) = true.
Proof. vm_compute. reflexivity. Qed.
Lemma fmt_four : forall z, (1850 <= z < 2150)%Z -> fmt_0d 4 z = four_digits z.
Proof. intros z H. apply bytes_eqb_eq. pose proof four_sweep as W. rewrite forallb_forall in W. apply W, Zupto_in. lia. Qed.

Lemma date_range : forall n y m d, 15000 <= n <= 88200 -> date_of_mjd n = (y, m, d) ->
  (1850 <= y < 2150 /\ 1 <= m <= 12 /\ 1 <= d <= 31)%Z.
Proof.
  intros n y m d H E. destruct (mjd_of_date_of_mjd n) as [M R]. rewrite E in *. destruct R as [Rm Rd].
  assert (D31 : (month_days y m <= 31)%Z) by (unfold month_days; repeat match goal with |- context [if ?b then _ else _] => destruct b end; lia).
  split; [|lia]. unfold mjd_of_date in M. clear -M H Rm Rd D31.
  assert (Mp : (0 <= (m + 9) mod 12 <= 11)%Z) by lia. generalize dependent ((m + 9) mod 12)%Z. intros mp M Mp.
  assert (Q : (0 <= (153 * mp + 2) / 5 <= 337)%Z) by lia. generalize dependent ((153 * mp + 2) / 5)%Z. intros q M Q.
  destruct (m <=? 2)%Z; lia.
Qed.

Lemma clock_text : forall env g m day hour minute west units, plain_clock env -> carries_clock g day hour minute west units ->
  15079 <= day <= 88127 -> hour <= 23 -> minute <= 59 -> units <= 29 ->
  decodeType4A env g (JObj m) = Ok (JObj (obj_put "clock_time"
    (JStr (iso_local (Z.of_N day * 1440 + Z.of_N hour * 60 + Z.of_N minute + half_hours west units * 30) (half_hours west units))) m)).
Proof.
  intros env g m day hour minute west units Pc C Hd Hh Hm Hu. destruct (clock_fields _ _ _ _ _ _ C) as (F0 & F1 & F2 & F3 & F4 & F5).
  unfold decodeType4A. rewrite F0. cbn [negb]. cbv zeta. rewrite F1, F2, F3, F4, F5.
  replace (day <? 15079) with false by (symmetry; apply N.ltb_ge; lia). rewrite mjd_calendar by exact Hd. cbn [bind].
  destruct (date_of_mjd day) as [[y mo] d] eqn:Ed.
  set (half := half_hours west units).
  assert (Eh : ((if west then -1 else 1) * Z.of_N units)%Z = half) by (subst half; unfold half_hours; destruct west; lia). rewrite Eh.
  assert (Rh : (-29 <= half <= 29)%Z) by (subst half; unfold half_hours; destruct west; lia).
  rewrite (Pc day y mo d (Z.of_N hour) (Z.of_N minute) (half * 1800)%Z) by (try assumption; lia).
  replace (hour <=? 23) with true by (symmetry; apply N.leb_le; exact Hh). replace (minute <=? 59) with true by (symmetry; apply N.leb_le; exact Hm).
  replace (Z.abs (Z.quot half 2) <=? 14)%Z with true by (symmetry; apply Z.leb_le; lia). cbn [andb].
  rewrite jset_top. do 3 f_equal. f_equal.
  set (M := (Z.of_N day * 1440 + Z.of_N hour * 60 + Z.of_N minute + half * 30)%Z).
  replace (Z.of_N day * 86400 + Z.of_N hour * 3600 + Z.of_N minute * 60 + half * 1800)%Z with (M * 60)%Z by (subst M; lia).
  assert (RM : (15078 * 1440 <= M < 88129 * 1440)%Z) by (subst M; lia). clearbody M half. clear - RM Rh.
  unfold tm_of, iso_local. replace (M * 60 / 86400)%Z with (M / 1440)%Z by lia.
  destruct (date_of_mjd (Z.to_N (M / 1440))) as [[y mo] d] eqn:E.
  destruct (date_range (Z.to_N (M / 1440)) y mo d ltac:(lia) E) as (Ry & Rmo & Rd).
  cbn [tm_year tm_mon tm_mday tm_hour tm_min tm_sec].
  replace (y - 1900 + 1900)%Z with y by lia. replace (mo - 1 + 1)%Z with mo by lia.
  replace ((M * 60) mod 86400 / 3600)%Z with (M mod 1440 / 60)%Z by lia.
  replace ((M * 60) mod 3600 / 60)%Z with (M mod 60)%Z by lia.
  rewrite (fmt_four y) by exact Ry. rewrite (fmt_two mo), (fmt_two d), (fmt_two (M mod 1440 / 60)), (fmt_two (M mod 60)) by lia.
  rewrite (fmt_two (Z.abs (Z.quot half 2))) by lia. rewrite (fmt_two (Z.abs ((half - 2 * Z.quot half 2) * 30))) by lia.
  replace (Z.abs (Z.quot half 2)) with (Z.abs half / 2)%Z by lia. replace (Z.abs ((half - 2 * Z.quot half 2) * 30))%Z with (Z.abs half mod 2 * 30)%Z by lia.
  destruct (Z.eqb_spec half 0) as [->|Nz].
  - change ((Z.abs 0 / 2 =? 0)%Z && ((0 - 2 * Z.quot 0 2) * 30 =? 0)%Z) with true. cbv iota. rewrite <- !app_assoc. reflexivity.
  - assert (X : (Z.abs half / 2 =? 0)%Z && ((half - 2 * Z.quot half 2) * 30 =? 0)%Z = false).
    { destruct (Z.eqb_spec (Z.abs half / 2) 0); [|reflexivity]. cbn [andb]. apply Z.eqb_neq. lia. }
    rewrite X. rewrite <- !app_assoc. reflexivity.
Qed.

Lemma prepared_get : forall o now c g w b, g_get (prepared o now c g w) b = g_get g b.
Proof. intros. unfold g_get. rewrite prepared_block. reflexivity. Qed.

Lemma prepared_clock : forall o now c g day hour minute west units, carries_clock g day hour minute west units ->
  carries_clock (prepared o now c g 0) day hour minute west units.
Proof.
  intros o now c g day hour minute west units H. unfold carries_clock in *.
  change (g_b2 (prepared o now c g 0)) with (g_block (prepared o now c g 0) BLOCK2).
  change (g_b3 (prepared o now c g 0)) with (g_block (prepared o now c g 0) BLOCK3).
  change (g_b4 (prepared o now c g 0)) with (g_block (prepared o now c g 0) BLOCK4).
  rewrite !prepared_block. exact H.
Qed.
Lemma prepared_is : forall o now c g n v, is_type g n v -> is_type (prepared o now c g 0) n v.
Proof. intros o now c g n v [H1 H2]. split; [rewrite prepared_has_type; exact H1|rewrite prepared_type; exact H2]. Qed.

Lemma raw_4A : forall st g, g_type g = mkGroupType 4 VA -> raw_group st g = false.
Proof. intros st g H. unfold raw_group. rewrite H. cbn [gt_number gt_version]. destruct (find_type _ _) as [a|]; [|reflexivity]. destruct (raw_app a); reflexivity. Qed.

Lemma clock_line : forall env o now c g day hour minute west units c' line, host_ok env -> host_text env -> plain_clock env ->
  o_output_type o = OutJSON -> reachable env o c -> g_has_bler g = false -> is_type g 4 VA -> carries_clock g day hour minute west units ->
  processGroup env o now c g 0 = Ok (c', Some line) ->
  15079 <= day <= 88127 -> hour <= 23 -> minute <= 59 -> units <= 29 ->
  says line ["clock_time"] (VStr (iso_local (Z.of_N day * 1440 + Z.of_N hour * 60 + Z.of_N minute + half_hours west units * 30) (half_hours west units))).
Proof.
  intros env o now c g day hour minute west units c' line H T Pc OJ Re Hb Ty C P Hd Hh Hm Hu.
  pose proof (host_text_txt env T) as E. pose proof (reachable_fine env o c H E Re) as Fc.
  destruct (prepared_is o now c g 4 VA Ty) as [T1 T2].
  destruct (process_shows _ _ _ _ _ _ _ _ H E OJ Fc Hb P) as (j & D & L); [left; apply raw_4A; exact T2|].
  unfold decoded in D. rewrite T1 in D. unfold decodeByType in D. rewrite T2 in D. cbn [gt_number gt_version N.eqb Pos.eqb Version_eqb andb] in D.
  cbv zeta iota in D. rewrite (clock_text env _ _ day hour minute west units Pc (prepared_clock o now c g _ _ _ _ _ C) Hd Hh Hm Hu) in D.
  cbn [bind] in D. injection D as _ <-. unfold says. rewrite L. cbn [jget]. rewrite find_put. reflexivity.
Qed.

(* Out of range values are reported *)
Lemma clock_invalid : forall env g m day hour minute west units, carries_clock g day hour minute west units ->
  day < 15079 \/ 24 <= hour \/ 60 <= minute \/ 30 <= units ->
  decodeType4A env g (JObj m) = debug (bs "invalid date/time") (JObj m).
Proof.
  intros env g m day hour minute west units C B. destruct (clock_fields _ _ _ _ _ _ C) as (F0 & F1 & F2 & F3 & F4 & F5).
  unfold decodeType4A. rewrite F0. cbn [negb]. cbv zeta. rewrite F1, F2, F3, F4, F5.
  destruct (N.ltb_spec day 15079) as [L|L]; [reflexivity|]. destruct C as (Hd & _). rewrite mjd_formula by (change 131072 with (2 ^ 17); split; assumption).
  cbn [bind]. destruct (dateZ (Z.of_N day)) as [[y mo] d].
  assert (X : (hour <=? 23) && (minute <=? 59) && (Z.abs (Z.quot ((if west then -1 else 1) * Z.of_N units) 2) <=? 14)%Z = false).
  { destruct (N.leb_spec hour 23); [|reflexivity]. destruct (N.leb_spec minute 59); [|reflexivity]. cbn [andb]. apply Z.leb_gt. destruct west; lia. }
  rewrite X. reflexivity.
Qed.

Lemma header_no : forall env o st g k, bler_ok g -> in_header k = false -> obj_find k (header env o st g) = None.
Proof. intros env o st g k B H. apply (proj2 (header_conf env o st g B) k H). Qed.

Lemma clock_invalid_line : forall env o now c g day hour minute west units c' line, host_ok env -> host_text env ->
  o_output_type o = OutJSON -> reachable env o c -> g_has_bler g = false -> is_type g 4 VA -> carries_clock g day hour minute west units ->
  processGroup env o now c g 0 = Ok (c', Some line) ->
  day < 15079 \/ 24 <= hour \/ 60 <= minute \/ 30 <= units ->
  lacks line "clock_time" /\ says line ["debug"] (VArr [VStr (bs "invalid date/time")]).
Proof.
  intros env o now c g day hour minute west units c' line H T OJ Re Hb Ty C P B.
  pose proof (host_text_txt env T) as E. pose proof (reachable_fine env o c H E Re) as Fc.
  destruct (prepared_is o now c g 4 VA Ty) as [T1 T2].
  destruct (process_shows _ _ _ _ _ _ _ _ H E OJ Fc Hb P) as (j & D & L); [left; apply raw_4A; exact T2|].
  unfold decoded in D. rewrite T1 in D. unfold decodeByType in D. rewrite T2 in D. cbn [gt_number gt_version N.eqb Pos.eqb Version_eqb andb] in D.
  cbv zeta iota in D. rewrite (clock_invalid env _ _ day hour minute west units (prepared_clock o now c g _ _ _ _ _ C) B) in D.
  destruct (prepared_bler o now c g 0 (proj1 Fc) Hb) as [_ Bo].
  set (h := header env o _ _) in D.
  assert (Nd : obj_find "debug" h = None) by (apply header_no; [exact Bo|reflexivity]).
  assert (Nc : obj_find "clock_time" h = None) by (apply header_no; [exact Bo|reflexivity]).
  unfold debug, jpush in D. cbn [jupd bind] in D. rewrite Nd in D. cbn [bind] in D. injection D as _ <-. unfold lacks, says. rewrite !L. cbn [jget].
  rewrite obj_put_new by exact Nd. rewrite !obj_find_app, Nd, Nc. split; reflexivity.
Qed.
