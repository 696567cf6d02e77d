(* C121: what a station sends is shown from hexadecimal text and from a tuner's lines as it is from the bits on the air (C117). *)
From Verif.Model Require Import Base Util Float Group BlockSync Options Json Tmc Tables Station Input Channel Dsp Main.
From Verif.Spec Require Import RdsCode RdsStream Reception Inputs Unicode Numerals JsonText Session Identity Quality Frequencies Calendar Clock Texts History Fields Labels Host Program Cases Recording OnAir Recovery Apps Traffic Plus Enhanced Transparent Heard HexText TunerText.
From Verif.Proofs Require Import Tac Syndrome Ring ChannelP EndP LossP BlockSyncT RecordP AirP BlockSyncS PartsP AgainTextP ErtP HeardP HexTextP TunerTextP SourceP.
From Verif.Props Require Import P_Channel P_Recording P_OnAir P_Recovery P_Again P_Parts P_ErtParts P_Freq P_Tmc P_Fields P_Labels P_Plus P_Transparent P_Heard P_HeardMore P_HeardData.

Local Open Scope string_scope.
Local Open Scope N_scope.
Local Open Scope list_scope.

(* --- C121 --- *)
(* In all of these the groups ts and tn of station p are lines of the input, of either kind (src), after any text and at least
   three groups of the station, and before any text (Spec/HexText.v, Spec/TunerText.v). *)

(* The line shown for tn *)
Definition shown_from (src : text_source) (env : Env) (o : Options) (clock : nat -> Z) (input : bytes) (Q : bytes -> Prop) : Prop :=
  exists items line more, output_of src env o clock input = Ok (EXIT_SUCCESS, items ++ [Line 0 line] ++ more) /\ Q line.

Lemma from_text : forall src o clock input p ts gs0 gb, p <> 0 -> plain_traffic (found_in_text src o clock input) -> text_situation (found_in_text src o clock input) p ts gs0 gb ->
  traffic_from p gs0 gb /\ never_encrypted (items_of (gs0 ++ gb)) /\ items_of gb = flat_map tx_items ts.
Proof.
  intros src o clock input p ts gs0 gb P0 (A & B & C) (Rg & T3 & Pi & Gv & Fi).
  assert (X : forall i, In i (items_of (gs0 ++ gb)) -> In i (flat_map app_items (found_in_text src o clock input))).
  { intros i X. apply in_flat_map in X. destruct X as (x & X1 & X2). apply in_flat_map. exists x. split; [apply Fi, X1|exact X2]. }
  split; [|split].
  - repeat split; try assumption; [exact (pi_stays _ _ Pi)|exact (pi_anyway _ _ _ Pi)| |].
    + intros t a m Y. apply (A t a m), X, Y.
    + intros a m Y. apply (B a m), X, Y.
  - intros t a m Y. apply (C t a m), X, Y.
  - exact (given_parts _ _ _ given_items _ _ Gv).
Qed.

(* The clock time *)
Theorem C121_clock_time : forall src env o clock input p tn day hour minute west units,
  host_ok env -> host_text env -> plain_clock env -> o_output_type o = OutJSON -> p <> 0 ->
  in_text src input p [tn] -> clock_sent tn day hour minute west units ->
  15079 <= day <= 88127 -> hour <= 23 -> minute <= 59 -> units <= 29 ->
  exists items line more, output_of src env o clock input = Ok (EXIT_SUCCESS, items ++ [Line 0 line] ++ more) /\
    says line ["clock_time"] (VStr (iso_local
      (Z.of_N day * 1440 + Z.of_N hour * 60 + Z.of_N minute + half_hours west units * 30) (half_hours west units))).
Proof.
  intros src env o clock input p tn day hour minute west units H HT Pc OJ P0 Hd (Ct & C2 & C3 & C4) Bd Bh Bm Bu.
  apply (source_line src env o H clock input p [tn] _ Hd). intros gs0 gb c out (Rg & T3 & Pi & Gv & Fi) Er.
  destruct (given_last [] tn gb Gv) as (gb1 & n & g & -> & G0 & Gn). inversion G0; subst. cbn [app] in *.
  destruct (last_shown (fun _ _ => True) env o H HT OJ (fun _ => I) (fun _ _ => I) (fun _ _ _ _ => I) (fun _ _ _ _ _ _ _ _ _ _ _ _ _ => I)
    0 gs0 [] n g 0 c out p Rg P0 T3 (pi_stays _ _ Pi) (Forall_inv Pi) Er) as (_ & _ & out0 & out1 & ln & _ & _ & _ & _ & Eo & _).
  destruct (run_snoc env o gs0 n g 0 _ _ _ Er) as (c1 & out2 & line & E1 & Eg & Eo2).
  assert (El : line = Some ln). { rewrite Eo2, app_assoc in Eo. apply app_inj_tail in Eo. exact (proj2 Eo). }
  exists out2, ln. split; [congruence|]. rewrite El in Eg.
  destruct (given_facts tn n g 0 Gn) as (_ & T & Ty & (_ & R2 & R3 & R4) & G2 & G3 & G4).
  unfold tx_type in Ct. apply andb_prop in Ct. destruct Ct as [Cn Cv]. apply N.eqb_eq in Cn. rewrite Cn in Ty. destruct (N.testbit (tx2 tn) 11); [discriminate|].
  apply Forall_app in Rg. destruct Rg as [Rg0 Rg1]. pose proof (Forall_inv Rg1) as (Bl & _ & Q2 & _ & _).
  eapply (C34_clock_time env o n c1 g day hour minute west units c ln); try eassumption.
  - exists (Channel_new o 0), (map as_call gs0). eexists. split; [left; exists 0; reflexivity|]. split; [|exact (session_groups env o gs0 _ _ _ E1)].
    apply Forall_forall. intros y Y. apply in_map_iff in Y. destruct Y as ([[n1 g1] w1] & <- & Y). cbn [as_call possible].
    rewrite Forall_forall in Rg0. destruct (Rg0 _ Y) as [B1 _]. split; [exact B1|].
    assert (X : In (g1, w1) (found_in_text src o clock input)).
    { apply Fi. unfold groups_of. rewrite map_app. apply in_or_app. left. apply in_map_iff. exists (n1, g1, w1). split; [reflexivity|exact Y]. }
    exact (found_streams _ _ _ _ _ _ X).
  - split; assumption.
  - unfold carries_clock. rewrite R2, R3, R4, G2, G3, G4. rewrite G2 in Q2. repeat split; try assumption; try lia.
Qed.
Print Assumptions C121_clock_time.


(* The long name, if groups 15A are not announced for an application *)
Theorem C121_long_name : forall src env o clock input p ts tn cs l,
  host_ok env -> host_text env -> o_output_type o = OutJSON -> p <> 0 ->
  in_text src input p (ts ++ [tn]) -> not_announced (mkGroupType 15 VA) (found_in_text src o clock input) ->
  long_name_part tn <> [] -> complete_text 32 (flat_map long_name_part (ts ++ [tn])) l -> Forall scalar cs -> map visible l = utf8_text cs ->
  exists items line more, output_of src env o clock input = Ok (EXIT_SUCCESS, items ++ [Line 0 line] ++ more) /\
    exists s, says line ["long_ps"] (VStr s) /\ trimmed (utf8_text cs) s.
Proof.
  intros src env o clock input p ts tn cs l H HT OJ P0 Hd Na Nn Cm Fc Vl.
  apply (source_line src env o H clock input p (ts ++ [tn]) _ Hd). intros gs0 gb c out (Rg & T3 & Pi & Gv & Fi) Er.
  rewrite <- (given_parts _ _ _ given_long_name _ _ Gv) in Cm.
  destruct (given_last ts tn gb Gv) as (gb1 & n & g & -> & _ & Gn). pose proof (given_long_name _ _ Gn) as Sn. cbn [fst snd] in Sn.
  destruct (C111_long_name env o 0 gs0 gb1 n g 0 c out p cs l H HT OJ Rg P0 T3 (pi_stays _ _ Pi) (pi_anyway _ _ _ Pi)) as (out' & line & s & Eo & S & Tr); try assumption.
  - rewrite Sn. exact Nn.
  - intros a X. apply (Na a). apply in_flat_map in X. destruct X as (x & X1 & X2). apply in_flat_map. exists x. split; [apply Fi, X1|exact X2].
  - exists out', line. split; [exact Eo|]. exists s. split; assumption.
Qed.
Print Assumptions C121_long_name.


(* A message of one group *)
Theorem C121_traffic_message : forall src env o clock input p ts tn ms flag duration,
  host_ok env -> host_text env -> o_output_type o = OutJSON -> p <> 0 ->
  in_text src input p (ts ++ [tn]) -> plain_traffic (found_in_text src o clock input) -> tmc_started (flat_map tx_items ts) ->
  message_ok ms -> ms_fields ms = [] -> duration < 8 -> user_groups (tx_items tn) = [single_group ms flag duration] ->
  exists items line more, output_of src env o clock input = Ok (EXIT_SUCCESS, items ++ [Line 0 line] ++ more) /\
    shows_message (env_tmc env) line ms.
Proof.
  intros src env o clock input p ts tn ms flag duration H HT OJ P0 Hd Pl St Mok Nf Dr U.
  apply (source_line src env o H clock input p (ts ++ [tn]) _ Hd). intros gs0 gb c out S Er.
  destruct (from_text src o clock input p _ gs0 gb P0 Pl S) as (T & Ne & _). destruct S as (_ & _ & _ & Gv & _).
  destruct (given_last ts tn gb Gv) as (gb1 & n & g & -> & G1 & Gn). pose proof (given_items _ _ Gn) as Sn. cbn [fst snd] in Sn.
  apply (C69_single_group_message env o 0 gs0 gb1 n g 0 c out p ms flag duration H HT OJ T); try assumption.
  - intros t' a m Y. apply (Ne t' a m). unfold items_of, groups_of in *. rewrite !map_app, !flat_map_app in *. rewrite !in_app_iff in *. tauto.
  - unfold items_of. rewrite (given_parts _ _ _ given_items _ _ G1). exact St.
  - rewrite Sn. exact U.
Qed.
Print Assumptions C121_traffic_message.

(* A message of two to five groups (see C43 and C116) *)
Theorem C121_long_traffic_message : forall src env o clock input p ts tn ms l1 l2 earlier ci groups,
  host_ok env -> host_text env -> o_output_type o = OutJSON -> p <> 0 ->
  in_text src input p (ts ++ [tn]) -> plain_traffic (found_in_text src o clock input) ->
  flat_map tx_items (ts ++ [tn]) = l1 ++ l2 -> tmc_started l1 ->
  message_ok ms -> sent_in ms groups -> (2 <= length groups <= 5)%nat -> multi_groups l2 = earlier ++ map (pair ci) groups -> multi_groups (tx_items tn) <> [] ->
  exists items line more, output_of src env o clock input = Ok (EXIT_SUCCESS, items ++ [Line 0 line] ++ more) /\
    exists fs1, (fs1 = ms_fields ms \/ (length groups = 3 \/ length groups = 4)%nat /\ in_second_group (ms_fields ms) fs1) /\
      shows_message (env_tmc env) line (with_fields ms fs1).
Proof.
  intros src env o clock input p ts tn ms l1 l2 earlier ci groups H HT OJ P0 Hd Pl El St Mok Sn Ln Em Nm.
  apply (source_line src env o H clock input p (ts ++ [tn]) _ Hd). intros gs0 gb c out S Er.
  destruct (from_text src o clock input p _ gs0 gb P0 Pl S) as (T & Ne & It). destruct S as (_ & _ & _ & Gv & _). rewrite <- It in El. clear It.
  destruct (given_last ts tn gb Gv) as (gb1 & n & g & -> & G1 & Gn). pose proof (given_items _ _ Gn) as Si. cbn [fst snd] in Si.
  destruct (C116_not_mixed env o 0 gs0 gb1 n g 0 c out p ms l1 l2 earlier ci groups H HT OJ T Ne El St Mok Sn Ln Em) as (out' & line & fs1 & Eo & F1 & Sm); [rewrite Si; exact Nm|exact Er|].
  exists out', line. split; [exact Eo|]. exists fs1. split; assumption.
Qed.
Print Assumptions C121_long_traffic_message.

(* Groups 0A, 0B and 15B *)
Theorem C121_flags : forall src env o clock input p ts tn, host_ok env -> host_text env -> o_output_type o = OutJSON -> p <> 0 ->
  in_text src input p (ts ++ [tn]) -> tx_type tn 0 false = true \/ tx_type tn 0 true = true \/ tx_type tn 15 true = true ->
  shown_from src env o clock input (fun line =>
    says line ["ta"] (VBool (N.testbit (tx2 tn) 4)) /\ says line ["is_music"] (VBool (N.testbit (tx2 tn) 3)) /\
    says line ["di"; nth (N.to_nat (tx2 tn mod 4)) di_names EmptyString] (VBool (N.testbit (tx2 tn) 2))).
Proof.
  intros src env o clock input p ts tn H HT OJ P0 Hd Ty. apply (source_one src env o clock input p ts tn _ H HT OJ P0 Hd).
  intros c n g c' line Re Rg Gv St Pg. destruct (given_facts tn n g 0 Gv) as (_ & _ & _ & (_ & R2 & _) & G2 & _). rewrite <- G2.
  destruct Ty as [Ty|[Ty|Ty]]; pose proof (given_is _ _ _ _ _ Gv Ty) as I.
  - eapply (C70_flags env o n c g c' line); try eassumption. left. split; [reflexivity|discriminate].
  - eapply (C70_flags env o n c g c' line); try eassumption. left. split; [reflexivity|discriminate].
  - eapply (C70_flags env o n c g c' line); try eassumption. right. split; reflexivity.
Qed.
Print Assumptions C121_flags.

(* Groups 1A and 1B: the programme item *)
Theorem C121_programme_item : forall src env o clock input p ts tn b day hour minute, host_ok env -> host_text env -> o_output_type o = OutJSON -> p <> 0 ->
  in_text src input p (ts ++ [tn]) -> tx_type tn 1 b = true -> tx4 tn = pin_of day hour minute -> 1 <= day <= 31 -> hour <= 23 -> minute <= 59 ->
  shown_from src env o clock input (fun line =>
    says_number line "prog_item_number" (pin_of day hour minute) /\
    (exists s, says line ["prog_item_started"; "day"] (VNum s) /\ numeral 10 s = Some day) /\
    says line ["prog_item_started"; "time"] (VStr (time_of_day hour minute))).
Proof.
  intros src env o clock input p ts tn b day hour minute H HT OJ P0 Hd Ty E4 B1 B2 B3. apply (source_one src env o clock input p ts tn _ H HT OJ P0 Hd).
  intros c n g c' line Re Rg Gv St Pg. destruct (given_facts tn n g 0 Gv) as (_ & _ & _ & (_ & _ & R3 & R4) & _ & _ & G4).
  pose proof (given_is _ _ _ _ _ Gv Ty) as I. destruct Rg as (Bl & _). eapply (C35_programme_item env o n c g); try eassumption; [destruct b; discriminate|congruence].
Qed.
Print Assumptions C121_programme_item.

(* Groups 1A: country, language and the other labels *)
Theorem C121_slow_labelling : forall src env o clock input p ts tn, host_ok env -> host_text env -> o_output_type o = OutJSON -> p <> 0 ->
  in_text src input p (ts ++ [tn]) -> tx_type tn 1 false = true ->
  let b3 := tx3 tn in let variant := (b3 / 2 ^ 12) mod 2 ^ 3 in
  shown_from src env o clock input (fun line =>
    says line ["has_linkage"] (VBool (N.testbit b3 15)) /\
    if_value ((variant =? 0) && negb (b3 mod 256 =? 0)) line ["country"] (VStr (country_name (p / 2 ^ 12 mod 2 ^ 4) (b3 mod 256))) /\
    if_n (variant =? 1) line ["tmc_id"] (b3 mod 2 ^ 12) /\
    if_value (variant =? 3) line ["language"] (VStr (language_name (b3 mod 256))) /\
    if_x (variant =? 6) 3 line ["slc_broadcaster_bits"] (b3 mod 2 ^ 11) /\
    if_n (variant =? 7) line ["ews"] (b3 mod 2 ^ 12)).
Proof.
  intros src env o clock input p ts tn H HT OJ P0 Hd Ty. apply (source_one src env o clock input p ts tn _ H HT OJ P0 Hd).
  intros c n g c' line Re Rg Gv St Pg. destruct (given_facts tn n g 0 Gv) as (_ & _ & _ & (_ & _ & R3 & R4) & _ & G3 & _). rewrite <- G3.
  eapply (C71_slow_labelling env o n c g c' line p); try eassumption. exact (given_is _ _ _ _ _ Gv Ty).
Qed.
Print Assumptions C121_slow_labelling.

(* Groups 14A and 14B: other networks *)
Theorem C121_other_network : forall src env o clock input p ts tn b, host_ok env -> host_text env -> o_output_type o = OutJSON -> p <> 0 ->
  in_text src input p (ts ++ [tn]) -> tx_type tn 14 b = true ->
  let b3 := tx3 tn in let variant := tx2 tn mod 2 ^ 4 in let on k := ["other_network"; k] in
  shown_from src env o clock input (fun line =>
    says_x 4 line (on "pi") (tx4 tn) /\ says line (on "tp") (VBool (N.testbit (tx2 tn) 4)) /\
    (b = true -> says line (on "ta") (VBool (N.testbit (tx2 tn) 3))) /\
    (b = false ->
      (5 <= variant <= 8 -> tx_freq_ok (TxFM (b3 mod 256)) -> says_n line (on "kilohertz") (freq_kHz (TxFM (b3 mod 256)))) /\
      (5 <= variant <= 8 -> ~ tx_freq_ok (TxFM (b3 mod 256)) -> line_at (on "kilohertz") line = None) /\
      (variant < 5 \/ 9 < variant -> line_at (on "kilohertz") line = None) /\
      if_value (variant =? 12) line (on "has_linkage") (VBool (N.testbit b3 15)) /\
      if_n ((variant =? 12) && N.testbit b3 15 && negb (b3 mod 2 ^ 12 =? 0)) line (on "linkage_set") (b3 mod 2 ^ 12) /\
      if_value (variant =? 13) line (on "prog_type") (VStr (programme_type (o_rbds o) ((b3 / 2 ^ 11) mod 2 ^ 5))) /\
      if_value (variant =? 13) line (on "ta") (VBool (N.testbit b3 0)) /\
      (if variant =? 15 then exists s, says line (on "broadcaster_data") (VStr s) /\ hex_digits 4 s b3
       else line_at (on "broadcaster_data") line = None)) /\
    (b = false -> variant = 14 -> forall day hour minute, b3 = pin_of day hour minute -> 1 <= day <= 31 -> hour <= 23 -> minute <= 59 ->
      says_n line (on "prog_item_number") (pin_of day hour minute) /\ says_n line ["other_network"; "prog_item_started"; "day"] day /\
      says line ["other_network"; "prog_item_started"; "time"] (VStr (time_of_day hour minute)))).
Proof.
  intros src env o clock input p ts tn b H HT OJ P0 Hd Ty. cbv zeta. apply (source_one src env o clock input p ts tn _ H HT OJ P0 Hd).
  intros c n g c' line Re Rg Gv St Pg. destruct (given_facts tn n g 0 Gv) as (_ & _ & _ & (_ & _ & R3 & R4) & G2 & G3 & G4). rewrite <- G2, <- G3, <- G4.
  pose proof (given_is _ _ _ _ _ Gv Ty) as I.
  destruct (C72_other_network env o n c g c' line (if b then VB else VA) H HT OJ Re Rg Pg I ltac:(destruct b; discriminate) R4) as (X1 & X2 & X3).
  split; [exact X1|]. split; [exact X2|]. split; [intros ->; apply X3; reflexivity|]. split.
  - intros ->. exact (C72_variants env o n c g c' line H HT OJ Re Rg Pg I R3 R4).
  - intros -> V day hour minute E B1 B2 B3. exact (C72_programme_item env o n c g c' line day hour minute H HT OJ Re Rg Pg I R3 R4 V E B1 B2 B3).
Qed.
Print Assumptions C121_other_network.

(* Groups 3A: announcements of applications *)
Theorem C121_announcement : forall src env o clock input p ts tn, host_ok env -> host_text env -> o_output_type o = OutJSON -> p <> 0 ->
  in_text src input p (ts ++ [tn]) -> tx_type tn 3 false = true ->
  shown_from src env o clock input (fun line =>
    says line ["open_data_app"; "oda_group"] (VStr (dec_string ((tx2 tn / 2) mod 16) ++ bs (if N.testbit (tx2 tn) 0 then "B" else "A"))) /\
    (forall name, In (tx4 tn, name) app_names -> says line ["open_data_app"; "app_name"] (VStr (bs name))) /\
    if_n (negb (existsb (fun x => tx4 tn =? fst x) app_names)) line ["open_data_app"; "message"] (tx3 tn)).
Proof.
  intros src env o clock input p ts tn H HT OJ P0 Hd Ty. apply (source_one src env o clock input p ts tn _ H HT OJ P0 Hd).
  intros c n g c' line Re Rg Gv St Pg. destruct (given_facts tn n g 0 Gv) as (_ & _ & _ & (_ & _ & R3 & R4) & G2 & G3 & G4). rewrite <- G2, <- G3, <- G4.
  destruct (C73_announcement env o n c g c' line H HT OJ Re Rg Pg (given_is _ _ _ _ _ Gv Ty) R3 R4) as (X1 & X2 & X3 & _). split; [exact X1|]. split; [exact X2|exact X3].
Qed.
Print Assumptions C121_announcement.

(* A list of alternative frequencies by method B *)
Theorem C121_method_b : forall src env o clock input p ts tn earlier evs c1 c2 fs tuned es,
  host_ok env -> host_text env -> o_output_type o = OutJSON -> p <> 0 ->
  in_text src input p (ts ++ [tn]) -> freq_codes tn <> [] ->
  flat_map freq_codes (ts ++ [tn]) = earlier ++ evs ++ [AfCodes c1 c2] ->
  af_transmission fs (codes_of (evs ++ [AfCodes c1 c2])) -> c1 <> filler \/ c2 <> filler ->
  map freq_kHz fs = b_list tuned es -> es <> [] -> Forall (fun e => entry_freq e <> tuned) es ->
  NoDup (same_programme es) -> NoDup (regional_variants es) ->
  shown_from src env o clock input (fun line =>
    (exists s, says line ["alt_frequencies_b"; "tuned_frequency"] (VNum s) /\ numeral 10 s = Some tuned) /\
    shows_numbers line ["alt_frequencies_b"; "same_programme"] (same_programme es) /\
    shows_numbers line ["alt_frequencies_b"; "regional_variants"] (regional_variants es)).
Proof.
  intros src env o clock input p ts tn earlier evs c1 c2 fs tuned es H HT OJ P0 Hd Nn Ev Tr Nf Bl En Ft N1 N2.
  apply (source_line src env o H clock input p (ts ++ [tn]) _ Hd). intros gs0 gb c out (Rg & T3 & Pi & Gv & _) Er.
  assert (Nm : ~ In AfMissed evs).
  { intros X. assert (Y : In AfMissed (flat_map freq_codes (ts ++ [tn]))) by (rewrite Ev; apply in_or_app; right; apply in_or_app; left; exact X).
    apply in_flat_map in Y. destruct Y as (x & _ & Y). unfold freq_codes in Y. destruct (tx_type x 0 false); [destruct Y as [Y|[]]; discriminate Y|destruct Y]. }
  rewrite <- (given_parts _ _ _ given_freq _ _ Gv) in Ev.
  destruct (given_last ts tn gb Gv) as (gb1 & n & g & -> & _ & Gn). pose proof (given_freq _ _ Gn) as Sn. cbn [fst snd] in Sn.
  destruct (C33_method_b env o 0 gs0 gb1 n g 0 c out p earlier evs c1 c2 fs tuned es H HT OJ Rg P0 T3 (pi_stays _ _ Pi) (pi_anyway _ _ _ Pi)) as (out' & line & Eo & X1 & X2 & X3 & _); try assumption.
  - rewrite Sn. exact Nn.
  - exists out', line. split; [exact Eo|]. repeat split; assumption.
Qed.
Print Assumptions C121_method_b.

(* Enhanced RadioText in groups of type ty, announced in ta, of which the parts in tb and tn, in any order and repeated, amount
   to a complete text (C111) *)
Theorem C121_enhanced_radiotext : forall src env o clock input p ta tb tn ty m cs l,
  host_ok env -> host_text env -> o_output_type o = OutJSON -> p <> 0 ->
  in_text src input p ((ta ++ tb) ++ [tn]) -> In ty for_applications -> in_utf8 m ->
  let found := found_in_text src o clock input in ert_only ty m found -> ert_whole ty found -> ert_short ty found ->
  In (ty, 0x6552) (flat_map tx_assigns ta) -> ert_part ty tn <> [] ->
  complete_text 64 (flat_map (ert_part ty) (tb ++ [tn])) l -> Forall scalar cs -> map visible l = utf8_text cs ->
  shown_from src env o clock input (fun line => exists s, says line ["enhanced_radiotext"] (VStr s) /\ trimmed (utf8_text cs) s).
Proof.
  intros src env o clock input p ta tb tn ty m cs l H HT OJ P0 Hd Ta U found Oy Wh Sh An Nn Cm Fc Vl.
  apply (source_line src env o H clock input p _ _ Hd). intros gs0 gb c out (Rg & T3 & Pi & Gv & Fi) Er.
  destruct (given_last (ta ++ tb) tn gb Gv) as (gb1 & n & g & -> & G1 & Gn). apply Forall2_app_inv_l in G1. destruct G1 as (ga & gb & Ga & Gb & ->).
  pose proof (given_ert ty _ _ Gn) as Sn. cbn [fst snd] in Sn. rewrite <- !app_assoc in *.
  rewrite <- (given_parts _ _ _ given_assigns _ _ Ga) in An.
  assert (Gl : Forall2 given (tb ++ [tn]) (gb ++ [(n, g, 0)])) by (apply Forall2_app; [exact Gb|repeat constructor; exact Gn]).
  rewrite <- (given_parts _ _ _ (given_ert ty) _ _ Gl) in Cm.
  destruct (C111_enhanced_radiotext env o 0 gs0 ga gb n g 0 c out p ty m cs l H HT OJ Rg P0 T3 (pi_stays _ _ Pi)) as (out' & line & s & Eo & S & Tr); try assumption.
  - apply Forall_forall. intros x X _. rewrite Forall_forall in Pi. exact (Pi x X).
  - intros t' a m' X. apply in_flat_map in X. destruct X as (x & X1 & X2). apply (Oy t' a m'). apply in_flat_map. exists x. split; [apply Fi, X1|exact X2].
  - intros g' X. apply (Wh g'). apply Fi, X.
  - unfold ert_short in *. rewrite Forall_forall in *. intros x X. apply in_flat_map in X. destruct X as (y & X1 & X2). apply Sh. apply in_flat_map. exists y. split; [apply Fi, X1|exact X2].
  - rewrite Sn. exact Nn.
  - exists out', line. split; [exact Eo|]. exists s. split; assumption.
Qed.
Print Assumptions C121_enhanced_radiotext.

(* RadioText Plus: ta assigns it to group types; t1 is the first of its groups for an item; tb are groups of any kind, among them
   all characters of a text l in order, then any of them again; tn is another RadioText Plus group of the same item, with the tags
   g1 and g2.  The characters they tag are shown (C29). *)
Theorem C121_tags : forall src env o clock input p ta t1 tb tn flag v l again g1 g2,
  host_ok env -> host_text env -> o_output_type o = OutJSON -> p <> 0 ->
  in_text src input p ((ta ++ t1 :: tb) ++ [tn]) ->
  In (tx_group_type t1) for_applications -> assigned_last (tx_group_type t1) (flat_map tx_assigns ta) rtplus ->
  In (tx_group_type tn) for_applications -> assigned_last (tx_group_type tn) (flat_map tx_assigns ((ta ++ t1 :: tb) ++ [tn])) rtplus ->
  (forall x, In x (tb ++ [tn]) -> In (tx_group_type x) for_applications ->
     In (tx_group_type x, rtplus) (flat_map announcement (found_in_text src o clock input)) -> tx_item_bits x = tx_item_bits t1) ->
  uniform flag v (flat_map text_part tb) -> part_writes (flat_map text_part tb) = place 0 l ++ again -> Forall (agrees l) again -> ended (rt_size v) l ->
  (tx2 tn mod 32, tx3 tn, tx4 tn) = tag_words (tx_item_bits t1) g1 g2 -> tags_ok g1 g2 ->
  Forall (fun x => real x = true -> fits l x) [g1; g2] ->
  shown_from src env o clock input (fun line => exists vs, Forall2 (shows_tag l) (filter real [g1; g2]) vs /\
    line_at ["radiotext_plus"; "tags"] line = match vs with [] => None | _ => Some (VArr vs) end /\
    says line ["radiotext_plus"; "item_running"] (VBool (snd (tx_item_bits t1)))).
Proof.
  intros src env o clock input p ta t1 tb tn flag v l again g1 g2 H HT OJ P0 Hd A1 L1 A L Sm Un Wr Ag En Tw Tok Fs.
  apply (source_line src env o H clock input p _ _ Hd). intros gs0 gb c out (Rg & T3 & Pi & Gv & Fi) Er.
  rewrite <- (given_parts _ _ _ given_assigns _ _ Gv) in L.
  destruct (given_last (ta ++ t1 :: tb) tn gb Gv) as (gb1 & n & g & -> & G1 & Gn). apply Forall2_app_inv_l in G1. destruct G1 as (ga & gc & Ga & Gc & ->).
  inversion Gc as [|? [[n1 k1] w1] ? gb Gk Gb]; subst. destruct (given_facts _ _ _ _ Gk) as (-> & Tk & Tyk & _ & K2 & _).
  destruct (given_facts _ _ _ _ Gn) as (_ & T & Ty & (_ & _ & R3 & R4) & G2 & G3 & G4).
  rewrite <- (given_parts _ _ _ given_assigns _ _ Ga) in L1. rewrite <- (given_parts _ _ _ given_text _ _ Gb) in Un, Wr.
  fold (tx_group_type t1) in Tyk. fold (tx_group_type tn) in Ty. assert (Ib : item_bits k1 = tx_item_bits t1) by (unfold item_bits, tx_item_bits; rewrite K2; reflexivity).
  assert (App : forall x n0 g0, given x (n0, g0, 0) -> In (tx_group_type x) for_applications -> app_group (g0, 0) = true).
  { intros x n0 g0 X Y. destruct (given_facts _ _ _ _ X) as (_ & Tx & Tyx & _). fold (tx_group_type x) in Tyx. unfold app_group. cbn [fst snd]. rewrite Tx, Tyx. cbn [N.eqb andb].
    apply existsb_exists. exists (tx_group_type x). split; [exact Y|]. destruct (tx_group_type x) as [a b]. unfold GroupType_eqb. cbn. rewrite N.eqb_refl. destruct b; reflexivity. }
  destruct (C29_tags_are_the_tagged_characters env o 0 p gs0 ga n1 k1 gb n g l g1 g2 c out H HT OJ) as (out' & line & vs & Eo & X1 & X2 & X3 & _); [|exact Fs|exact Er|].
  - split; [exact Rg|]. split; [exact P0|]. split; [exact T3|]. split; [exact (pi_stays _ _ Pi)|]. split; [apply Forall_forall; intros x X _; rewrite Forall_forall in Pi; exact (Pi x X)|].
    split; [exact (App _ _ _ Gk A1)|]. split; [rewrite Tyk; exact L1|]. split; [exact (App _ _ _ Gn A)|]. split; [rewrite Ty; exact L|].
    split; [|split; [exists flag, v, again; repeat split; assumption|split; [exact R3|split; [exact R4|split; [rewrite G2, G3, G4, Ib; exact Tw|exact Tok]]]]].
    assert (Gl : Forall2 given (tb ++ [tn]) (gb ++ [(n, g, 0)])) by (apply Forall2_app; [exact Gb|repeat constructor; exact Gn]).
    change (groups_of gb ++ [(g, 0)]) with (groups_of gb ++ groups_of [(n, g, 0)]). unfold groups_of at 1 2. rewrite <- map_app.
    intros x X [Xa Xo]. apply in_map_iff in X. destruct X as ([[nx gx] wx] & <- & X). cbn [fst snd] in *.
    destruct (Forall2_In_r _ _ _ _ Gl X) as (tx & It & Gx). destruct (given_facts _ _ _ _ Gx) as (-> & Tx & Tyx & _ & X2 & _). fold (tx_group_type tx) in Tyx.
    rewrite Ib, <- (Sm tx It).
    + unfold item_bits, tx_item_bits. rewrite X2. reflexivity.
    + unfold app_group in Xa. cbn [fst snd] in Xa. rewrite Tx, Tyx in Xa. cbn [N.eqb andb] in Xa. apply existsb_exists in Xa. destruct Xa as (y & Y1 & Y2). apply ErtP.eqb_types in Y2. congruence.
    + rewrite <- Tyx. apply in_flat_map in Xo. destruct Xo as (y & Y1 & Y2). apply in_flat_map. exists y. split; [apply Fi, Y1|exact Y2].
  - exists out', line. split; [exact Eo|]. exists vs. rewrite Ib in X3. repeat split; assumption.
Qed.
Print Assumptions C121_tags.

(* The transparent data channel as a whole: ts and tn are anything of the station in which the bytes l come last, in order:
   all 128, or any number of them with an end mark among them (C81). *)
Theorem C121_data_channel : forall src env o clock input p ts tn l d earlier,
  host_ok env -> host_text env -> o_output_type o = OutJSON -> p <> 0 ->
  in_text src input p (ts ++ [tn]) -> not_announced (mkGroupType 5 VA) (found_in_text src o clock input) ->
  data_part tn <> [] -> flat_map data_part (ts ++ [tn]) = earlier ++ place 0 l ->
  (length l = 128%nat /\ ~ In end_of_text l /\ d = l) \/
  (exists t0 r, l = t0 ++ end_of_text :: r /\ ~ In end_of_text t0 /\ d = t0 ++ [end_of_text]) ->
  shown_from src env o clock input (fun line => says line ["transparent_data"; "full_text"] (VStr (rds_text d)) /\
    exists x, says line ["transparent_data"; "full_raw"] (VStr x) /\ hex_bytes (map visible d) x).
Proof.
  intros src env o clock input p ts tn l d earlier H HT OJ P0 Hd Na Nn Ev Cm.
  apply (source_line src env o H clock input p (ts ++ [tn]) _ Hd). intros gs0 gb c out (Rg & T3 & Pi & Gv & Fi) Er.
  rewrite <- (given_parts _ _ _ given_data _ _ Gv) in Ev.
  destruct (given_last ts tn gb Gv) as (gb1 & n & g & -> & _ & Gn). pose proof (given_data _ _ Gn) as Sn. cbn [fst snd] in Sn.
  destruct (C81_data_received_are_shown env o 0 gs0 gb1 n g 0 c out p l d earlier H HT OJ Rg P0 T3 (pi_stays _ _ Pi) (pi_anyway _ _ _ Pi))
    as (out' & line & x & Eo & S1 & S2 & Hx); [rewrite Sn; exact Nn|exact (still_not_announced _ _ _ Na Fi)|exact Ev|exact Cm|exact Er|].
  exists out', line. split; [exact Eo|]. split; [exact S1|]. exists x. split; assumption.
Qed.
Print Assumptions C121_data_channel.

(* A group of type 5 on its own *)
Theorem C121_transparent_data : forall src env o clock input p ts tn b, host_ok env -> host_text env -> o_output_type o = OutJSON -> p <> 0 ->
  in_text src input p (ts ++ [tn]) -> tx_type tn 5 b = true -> not_announced (tx_group_type tn) (found_in_text src o clock input) ->
  let l := if b then [hi (tx4 tn); lo (tx4 tn)] else [hi (tx3 tn); lo (tx3 tn); hi (tx4 tn); lo (tx4 tn)] in
  shown_from src env o clock input (fun line => says_n line ["transparent_data"; "address"] (tx2 tn mod 32) /\
    (exists x, says line ["transparent_data"; "raw"] (VStr x) /\ hex_bytes l x) /\
    says line ["transparent_data"; "as_text"] (VStr (rds_text (up_to_end l)))).
Proof.
  intros src env o clock input p ts tn b H HT OJ P0 Hd Ty Na. cbv zeta.
  apply (source_line src env o H clock input p (ts ++ [tn]) _ Hd). intros gs0 gb c out (Rg & T3 & Pi & Gv & Fi) Er.
  destruct (given_last ts tn gb Gv) as (gb1 & n & g & -> & _ & Gn).
  destruct (given_facts tn n g 0 Gn) as (_ & _ & Tg & (_ & _ & R3 & R4) & G2 & G3 & G4). pose proof (given_is _ _ _ _ _ Gn Ty) as I.
  assert (Pn : carried_pi (n, g, 0) = Some p) by (apply Forall_app in Pi; destruct Pi as [_ Pi]; exact (Forall_inv Pi)).
  rewrite <- G2, <- G3, <- G4. unfold tx_group_type in Na. rewrite <- Tg in Na. destruct I as [I1 I2]. rewrite I2 in Na.
  destruct (C74_transparent_data env o 0 gs0 gb1 n g c out p (if b then VB else VA) H HT OJ Rg P0 T3 (pi_stays _ _ Pi) Pn (conj I1 I2)) as (out' & line & Eo & S);
    [destruct b; discriminate|exact (still_not_announced _ _ _ Na Fi)|exact R3|exact R4|exact Er|].
  exists out', line. split; [exact Eo|]. destruct b; exact S.
Qed.
Print Assumptions C121_transparent_data.

(* Groups of type 6: in-house data, as numbers *)
Theorem C121_in_house_data : forall src env o clock input p ts tn b, host_ok env -> host_text env -> o_output_type o = OutJSON -> p <> 0 ->
  in_text src input p (ts ++ [tn]) -> tx_type tn 6 b = true -> not_announced (tx_group_type tn) (found_in_text src o clock input) ->
  shown_from src env o clock input (fun line => says_list line ["in_house_data"] (tx2 tn mod 32 :: if b then [tx4 tn] else [tx3 tn; tx4 tn])).
Proof.
  intros src env o clock input p ts tn b H HT OJ P0 Hd Ty Na.
  apply (source_line src env o H clock input p (ts ++ [tn]) _ Hd). intros gs0 gb c out (Rg & T3 & Pi & Gv & Fi) Er.
  destruct (given_last ts tn gb Gv) as (gb1 & n & g & -> & _ & Gn).
  destruct (given_facts tn n g 0 Gn) as (_ & _ & Tg & (_ & _ & R3 & R4) & G2 & G3 & G4). pose proof (given_is _ _ _ _ _ Gn Ty) as I.
  assert (Pn : carried_pi (n, g, 0) = Some p) by (apply Forall_app in Pi; destruct Pi as [_ Pi]; exact (Forall_inv Pi)).
  rewrite <- G2, <- G3, <- G4. unfold tx_group_type in Na. rewrite <- Tg in Na. destruct I as [I1 I2]. rewrite I2 in Na.
  destruct (C74_in_house_data env o 0 gs0 gb1 n g c out p (if b then VB else VA) H HT OJ Rg P0 T3 (pi_stays _ _ Pi) Pn (conj I1 I2)) as (out' & line & Eo & S);
    [destruct b; discriminate|exact (still_not_announced _ _ _ Na Fi)|exact Er|].
  exists out', line. split; [exact Eo|]. rewrite R3, R4 in S. destruct b; exact S.
Qed.
Print Assumptions C121_in_house_data.

(* --- groups in text, as in the cases of C117 --- *)
(* Files with three groups 2A, the groups ts and something else *)
Definition digits4 (n : N) : bytes := map (fun k => let d := (n / 16 ^ k) mod 16 in if d <? 10 then 48 + d else 55 + d) [3; 2; 1; 0].
Definition start3 : list TxGroup := repeat (mkTx 0x1234 0x2400 0x4142 0x4344) 3.
Definition line_of (t : TxGroup) : bytes := digits4 (tx1 t) ++ 32 :: digits4 (tx2 t) ++ 32 :: digits4 (tx3 t) ++ 32 :: digits4 (tx4 t).
Definition lines_of (t : TxGroup) : list bytes := [80 :: digits4 (tx1 t) ++ []; 82 :: digits4 (tx2 t) ++ digits4 (tx3 t) ++ digits4 (tx4 t) ++ [48; 48]].
Definition file_of (src : text_source) (ts : list TxGroup) : bytes :=
  match src with
  | HexText => (bs "recorded in Oulu" ++ [10]) ++ text_file (map line_of (start3 ++ ts)) ++ bs "1234 24"
  | TunerText => (bs "Ss42.1" ++ [10]) ++ text_file (concat (map lines_of (start3 ++ ts))) ++ bs "P12"
  end.
Lemma map_related : forall (A B : Type) (R : A -> B -> Prop) (f : A -> B) l, Forall (fun x => R x (f x)) l -> Forall2 R l (map f l).
Proof. induction 1; cbn [map]; constructor; assumption. Qed.
Lemma in_file : forall src ts, Forall (fun t => tx1 t = 0x1234) ts -> Forall (fun t => written_as t (line_of t)) (start3 ++ ts) -> Forall (fun t => tuner_lines t (lines_of t)) (start3 ++ ts) ->
  in_text src (file_of src ts) 0x1234 ts.
Proof.
  intros src ts P W T. destruct src; cbn [in_text file_of].
  - exists (bs "recorded in Oulu" ++ [10]), start3, (map line_of (start3 ++ ts)), (bs "1234 24"). split; [reflexivity|]. split; [right; eexists; reflexivity|].
    split; [apply map_related; exact W|]. split; [apply Forall_app; split; [repeat constructor|exact P]|cbn; lia].
  - exists (bs "Ss42.1" ++ [10]), start3, (map lines_of (start3 ++ ts)), (bs "P12"). split; [reflexivity|]. split; [right; eexists; reflexivity|].
    split; [apply map_related; exact T|]. split; [apply Forall_app; split; [repeat constructor|exact P]|cbn; lia].
Qed.
Ltac by_file := apply in_file; match goal with |- Forall _ ?l => let l' := eval vm_compute in l in change l with l' end;
  [repeat constructor
  |repeat (constructor; [do 17 eexists; split; [vm_compute; reflexivity|]; repeat split; try (vm_compute; reflexivity); [vm_compute; discriminate|vm_compute; intuition discriminate]|]); constructor
  |repeat (constructor; [exists []; do 5 eexists; exists []; do 13 eexists; split; [vm_compute; reflexivity|]; repeat split; try (vm_compute; reflexivity); try (intros []); constructor|]); constructor].
Definition the_clock_at : nat -> Z := fun _ => 0%Z.

Example C121_clock_case : forall src, in_text src (file_of src [the_clock]) 0x1234 [the_clock] /\ clock_sent the_clock 60337 12 34 false 2.
Proof. intros src. split; [by_file|]. repeat split; vm_compute; reflexivity. Qed.
Example C121_shown_case : forall src, exists items line more, output_of src plain_host Options_default the_clock_at (file_of src [the_clock]) = Ok (EXIT_SUCCESS, items ++ [Line 0 line] ++ more) /\
  says line ["clock_time"] (VStr (bs "2024-01-28T13:34:00+01:00")).
Proof. intros []; eexists [Line 0 _], _, _; (split; [vm_compute; reflexivity|]); vm_compute; reflexivity. Qed.
Example C121_long_name_case : forall src, let input := file_of src (long_parts ++ [long_last]) in in_text src input 0x1234 (long_parts ++ [long_last]) /\
  not_announced (mkGroupType 15 VA) (found_in_text src Options_default the_clock_at input).
Proof. intros src input. split; [unfold input; clear input; by_file|]. apply no_one. destruct src; vm_compute; reflexivity. Qed.
Lemma plain_check : forall found, forallb (fun i => match i with
    | Announced t a m => GroupType_eqb t type_8A && is_tmc a && negb (table_number m =? 0) | _ => true end) (flat_map app_items found) = true -> plain_traffic found.
Proof.
  intros found E. rewrite forallb_forall in E.
  assert (X : forall t a m, In (Announced t a m) (flat_map app_items found) -> t = type_8A /\ is_tmc a = true /\ table_number m <> 0).
  { intros t a m I0. specialize (E _ I0). cbn beta iota in E. apply andb_prop in E. destruct E as [E E3]. apply andb_prop in E. destruct E as [E1 E2].
    split; [|split; [exact E2|]].
    - destruct t as [k v]. unfold GroupType_eqb, type_8A in *. cbn [gt_number gt_version] in E1. apply andb_prop in E1. destruct E1 as [A B]. apply N.eqb_eq in A. subst k. destruct v; try discriminate B; reflexivity.
    - intros E0. rewrite E0 in E3. discriminate E3. }
  split; [|split].
  - intros t a m I0 _. exact (proj1 (X t a m I0)).
  - intros a m I0. exact (proj1 (proj2 (X _ a m I0))).
  - intros t a m I0 _ _. exact (proj2 (proj2 (X t a m I0))).
Qed.
Example C121_traffic_case : forall src, let input := file_of src (message_5 ++ [message_5_last]) in in_text src input 0x1234 (message_5 ++ [message_5_last]) /\
  plain_traffic (found_in_text src Options_default the_clock_at input).
Proof. intros src input. split; [unfold input; clear input; by_file|]. apply plain_check. destruct src; vm_compute; reflexivity. Qed.
Example C121_enhanced_case : forall src, let ty := mkGroupType 11 VA in let input := file_of src ((ert_start ++ ert_middle) ++ [ert_end]) in
  let found := found_in_text src Options_default the_clock_at input in
  in_text src input 0x1234 ((ert_start ++ ert_middle) ++ [ert_end]) /\ ert_only ty 1 found /\ ert_whole ty found /\ ert_short ty found.
Proof.
  intros src ty input found. split; [clear found; unfold input; clear input; by_file|].
  split; [destruct src; (eapply only_by; [vm_compute; reflexivity|]); intros t' a m X; cbn in X; repeat (destruct X as [X|X]; [first [discriminate X|injection X as <- <- <-; split; [intros _; repeat split; reflexivity|discriminate]]|]); destruct X|].
  split. { assert (E : forallb (fun x => negb (g_has_type (fst x)) || blk_is_received (g_b3 (fst x))) found = true) by (destruct src; vm_compute; reflexivity).
    rewrite forallb_forall in E. intros g X Y _. specialize (E _ X). cbn [fst] in E. rewrite Y in E. exact E. }
  apply (Forall_by _ (fun pb => fst pb <? 64)); [intros x X; apply N.ltb_lt; exact X|destruct src; vm_compute; reflexivity].
Qed.
Example C121_tags_case : forall src, let ts := (plus_assign ++ plus_first :: plus_text) ++ [plus_last] in in_text src (file_of src ts) 0x1234 ts.
Proof. intros src ts. unfold ts. by_file. Qed.
Example C121_data_case : forall src, let input := file_of src (data_start ++ [data_last]) in in_text src input 0x1234 (data_start ++ [data_last]) /\
  not_announced (mkGroupType 5 VA) (found_in_text src Options_default the_clock_at input).
Proof. intros src input. split; [unfold input; clear input; by_file|]. apply no_one. destruct src; vm_compute; reflexivity. Qed.
