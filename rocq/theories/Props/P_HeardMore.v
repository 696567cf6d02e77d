(* C117, continued: flags, labels, other networks, announcements, RadioText Plus and Enhanced RadioText from the bits on the air. *)
From Verif.Model Require Import Base Util Float Group BlockSync Options Json Tmc Tables Station Input Channel Dsp Main.
From Verif.Spec Require Import RdsCode RdsStream Reception Inputs Unicode Numerals JsonText Session Identity Quality Frequencies Calendar Texts History Fields Labels Host Program Cases Recording OnAir Recovery Apps Traffic Plus Enhanced Heard.
From Verif.Proofs Require Import Tac ChannelP EndP LossP BlockSyncT AirP BlockSyncS PartsP ErtP HeardP.
From Verif.Props Require Import P_Channel P_Recording P_OnAir P_Recovery P_Again P_Parts P_ErtParts P_Freq P_Fields P_Labels P_Plus P_Heard.

Local Open Scope string_scope.
Local Open Scope N_scope.
Local Open Scope list_scope.

(* The line shown for tn, if groups of station p are heard of which the last is tn *)
Definition shown (env : Env) (o : Options) (clock : nat -> Z) (t : Z) (input : bytes) (Q : bytes -> Prop) : Prop :=
  exists items line more, processASCIIBitsInput env o clock t input = Ok (EXIT_SUCCESS, items ++ [Line 0 line] ++ more) /\ Q line.

(* Groups 0A, 0B and 15B *)
Theorem C117_flags : forall env o clock t input p ts tn, host_ok env -> host_text env -> o_output_type o = OutJSON -> p <> 0 ->
  heard (o_use_fec o) input p (ts ++ [tn]) -> tx_type tn 0 false = true \/ tx_type tn 0 true = true \/ tx_type tn 15 true = true ->
  shown env o clock t input (fun line =>
    says line ["ta"] (VBool (N.testbit (tx2 tn) 4)) /\ says line ["is_music"] (VBool (N.testbit (tx2 tn) 3)) /\
    says line ["di"; nth (N.to_nat (tx2 tn mod 4)) di_names EmptyString] (VBool (N.testbit (tx2 tn) 2))).
Proof.
  intros env o clock t input p ts tn H HT OJ P0 Hd Ty. apply (heard_one env o clock t input p ts tn _ H HT OJ P0 Hd).
  intros c n g c' line Re Rg Gv St Pg. destruct (given_facts tn n g 0 Gv) as (_ & _ & _ & (_ & R2 & _) & G2 & _). rewrite <- G2.
  destruct Ty as [Ty|[Ty|Ty]]; pose proof (given_is _ _ _ _ _ Gv Ty) as I.
  - eapply (C70_flags env o n c g c' line); try eassumption. left. split; [reflexivity|discriminate].
  - eapply (C70_flags env o n c g c' line); try eassumption. left. split; [reflexivity|discriminate].
  - eapply (C70_flags env o n c g c' line); try eassumption. right. split; reflexivity.
Qed.
Print Assumptions C117_flags.

(* Groups 1A and 1B: the programme item *)
Theorem C117_programme_item : forall env o clock t input p ts tn b day hour minute, host_ok env -> host_text env -> o_output_type o = OutJSON -> p <> 0 ->
  heard (o_use_fec o) input p (ts ++ [tn]) -> tx_type tn 1 b = true -> tx4 tn = pin_of day hour minute -> 1 <= day <= 31 -> hour <= 23 -> minute <= 59 ->
  shown env o clock t input (fun line =>
    says_number line "prog_item_number" (pin_of day hour minute) /\
    (exists s, says line ["prog_item_started"; "day"] (VNum s) /\ numeral 10 s = Some day) /\
    says line ["prog_item_started"; "time"] (VStr (time_of_day hour minute))).
Proof.
  intros env o clock t input p ts tn b day hour minute H HT OJ P0 Hd Ty E4 B1 B2 B3. apply (heard_one env o clock t input p ts tn _ H HT OJ P0 Hd).
  intros c n g c' line Re Rg Gv St Pg. destruct (given_facts tn n g 0 Gv) as (_ & _ & _ & (_ & _ & R3 & R4) & _ & _ & G4).
  pose proof (given_is _ _ _ _ _ Gv Ty) as I. destruct Rg as (Bl & _). eapply (C35_programme_item env o n c g); try eassumption; [destruct b; discriminate|congruence].
Qed.
Print Assumptions C117_programme_item.

(* Groups 1A: country, language and the other labels *)
Theorem C117_slow_labelling : forall env o clock t input p ts tn, host_ok env -> host_text env -> o_output_type o = OutJSON -> p <> 0 ->
  heard (o_use_fec o) input p (ts ++ [tn]) -> tx_type tn 1 false = true ->
  let b3 := tx3 tn in let variant := (b3 / 2 ^ 12) mod 2 ^ 3 in
  shown env o clock t input (fun line =>
    says line ["has_linkage"] (VBool (N.testbit b3 15)) /\
    if_value ((variant =? 0) && negb (b3 mod 256 =? 0)) line ["country"] (VStr (country_name (p / 2 ^ 12 mod 2 ^ 4) (b3 mod 256))) /\
    if_n (variant =? 1) line ["tmc_id"] (b3 mod 2 ^ 12) /\
    if_value (variant =? 3) line ["language"] (VStr (language_name (b3 mod 256))) /\
    if_x (variant =? 6) 3 line ["slc_broadcaster_bits"] (b3 mod 2 ^ 11) /\
    if_n (variant =? 7) line ["ews"] (b3 mod 2 ^ 12)).
Proof.
  intros env o clock t input p ts tn H HT OJ P0 Hd Ty. apply (heard_one env o clock t input p ts tn _ H HT OJ P0 Hd).
  intros c n g c' line Re Rg Gv St Pg. destruct (given_facts tn n g 0 Gv) as (_ & _ & _ & (_ & _ & R3 & R4) & _ & G3 & _). rewrite <- G3.
  eapply (C71_slow_labelling env o n c g c' line p); try eassumption. exact (given_is _ _ _ _ _ Gv Ty).
Qed.
Print Assumptions C117_slow_labelling.

(* Groups 14A and 14B: other networks *)
Theorem C117_other_network : forall env o clock t input p ts tn b, host_ok env -> host_text env -> o_output_type o = OutJSON -> p <> 0 ->
  heard (o_use_fec o) input p (ts ++ [tn]) -> tx_type tn 14 b = true ->
  let b3 := tx3 tn in let variant := tx2 tn mod 2 ^ 4 in let on k := ["other_network"; k] in
  shown env o clock t input (fun line =>
    says_x 4 line (on "pi") (tx4 tn) /\ says line (on "tp") (VBool (N.testbit (tx2 tn) 4)) /\
    (b = true -> says line (on "ta") (VBool (N.testbit (tx2 tn) 3))) /\
    (b = false ->
      (5 <= variant <= 8 -> tx_freq_ok (TxFM (b3 mod 256)) -> says_n line (on "kilohertz") (freq_kHz (TxFM (b3 mod 256)))) /\
      (5 <= variant <= 8 -> ~ tx_freq_ok (TxFM (b3 mod 256)) -> line_at (on "kilohertz") line = None) /\
      (variant < 5 \/ 9 < variant -> line_at (on "kilohertz") line = None) /\
      if_value (variant =? 12) line (on "has_linkage") (VBool (N.testbit b3 15)) /\
      if_n ((variant =? 12) && N.testbit b3 15 && negb (b3 mod 2 ^ 12 =? 0)) line (on "linkage_set") (b3 mod 2 ^ 12) /\
      if_value (variant =? 13) line (on "prog_type") (VStr (programme_type (o_rbds o) ((b3 / 2 ^ 11) mod 2 ^ 5))) /\
      if_value (variant =? 13) line (on "ta") (VBool (N.testbit b3 0)) /\
      (if variant =? 15 then exists s, says line (on "broadcaster_data") (VStr s) /\ hex_digits 4 s b3
       else line_at (on "broadcaster_data") line = None)) /\
    (b = false -> variant = 14 -> forall day hour minute, b3 = pin_of day hour minute -> 1 <= day <= 31 -> hour <= 23 -> minute <= 59 ->
      says_n line (on "prog_item_number") (pin_of day hour minute) /\ says_n line ["other_network"; "prog_item_started"; "day"] day /\
      says line ["other_network"; "prog_item_started"; "time"] (VStr (time_of_day hour minute)))).
Proof.
  intros env o clock t input p ts tn b H HT OJ P0 Hd Ty. cbv zeta. apply (heard_one env o clock t input p ts tn _ H HT OJ P0 Hd).
  intros c n g c' line Re Rg Gv St Pg. destruct (given_facts tn n g 0 Gv) as (_ & _ & _ & (_ & _ & R3 & R4) & G2 & G3 & G4). rewrite <- G2, <- G3, <- G4.
  pose proof (given_is _ _ _ _ _ Gv Ty) as I.
  destruct (C72_other_network env o n c g c' line (if b then VB else VA) H HT OJ Re Rg Pg I ltac:(destruct b; discriminate) R4) as (X1 & X2 & X3).
  split; [exact X1|]. split; [exact X2|]. split; [intros ->; apply X3; reflexivity|]. split.
  - intros ->. exact (C72_variants env o n c g c' line H HT OJ Re Rg Pg I R3 R4).
  - intros -> V day hour minute E B1 B2 B3. exact (C72_programme_item env o n c g c' line day hour minute H HT OJ Re Rg Pg I R3 R4 V E B1 B2 B3).
Qed.
Print Assumptions C117_other_network.

(* Groups 3A: announcements of applications *)
Theorem C117_announcement : forall env o clock t input p ts tn, host_ok env -> host_text env -> o_output_type o = OutJSON -> p <> 0 ->
  heard (o_use_fec o) input p (ts ++ [tn]) -> tx_type tn 3 false = true ->
  shown env o clock t input (fun line =>
    says line ["open_data_app"; "oda_group"] (VStr (dec_string ((tx2 tn / 2) mod 16) ++ bs (if N.testbit (tx2 tn) 0 then "B" else "A"))) /\
    (forall name, In (tx4 tn, name) app_names -> says line ["open_data_app"; "app_name"] (VStr (bs name))) /\
    if_n (negb (existsb (fun x => tx4 tn =? fst x) app_names)) line ["open_data_app"; "message"] (tx3 tn)).
Proof.
  intros env o clock t input p ts tn H HT OJ P0 Hd Ty. apply (heard_one env o clock t input p ts tn _ H HT OJ P0 Hd).
  intros c n g c' line Re Rg Gv St Pg. destruct (given_facts tn n g 0 Gv) as (_ & _ & _ & (_ & _ & R3 & R4) & G2 & G3 & G4). rewrite <- G2, <- G3, <- G4.
  destruct (C73_announcement env o n c g c' line H HT OJ Re Rg Pg (given_is _ _ _ _ _ Gv Ty) R3 R4) as (X1 & X2 & X3 & _). split; [exact X1|]. split; [exact X2|exact X3].
Qed.
Print Assumptions C117_announcement.

(* A list of alternative frequencies by method B *)
Theorem C117_method_b : forall env o clock t input p ts tn earlier evs c1 c2 fs tuned es,
  host_ok env -> host_text env -> o_output_type o = OutJSON -> p <> 0 ->
  heard (o_use_fec o) input p (ts ++ [tn]) -> freq_codes tn <> [] ->
  flat_map freq_codes (ts ++ [tn]) = earlier ++ evs ++ [AfCodes c1 c2] ->
  af_transmission fs (codes_of (evs ++ [AfCodes c1 c2])) -> c1 <> filler \/ c2 <> filler ->
  map freq_kHz fs = b_list tuned es -> es <> [] -> Forall (fun e => entry_freq e <> tuned) es ->
  NoDup (same_programme es) -> NoDup (regional_variants es) ->
  shown env o clock t input (fun line =>
    (exists s, says line ["alt_frequencies_b"; "tuned_frequency"] (VNum s) /\ numeral 10 s = Some tuned) /\
    shows_numbers line ["alt_frequencies_b"; "same_programme"] (same_programme es) /\
    shows_numbers line ["alt_frequencies_b"; "regional_variants"] (regional_variants es)).
Proof.
  intros env o clock t input p ts tn earlier evs c1 c2 fs tuned es H HT OJ P0 Hd Nn Ev Tr Nf Bl En Ft N1 N2.
  apply (heard_line env o H clock t input p (ts ++ [tn]) _ Hd). intros gs0 gb c out (Rg & T3 & Pi & Gv & _) Er.
  assert (Nm : ~ In AfMissed evs).
  { intros X. assert (Y : In AfMissed (flat_map freq_codes (ts ++ [tn]))) by (rewrite Ev; apply in_or_app; right; apply in_or_app; left; exact X).
    apply in_flat_map in Y. destruct Y as (x & _ & Y). unfold freq_codes in Y. destruct (tx_type x 0 false); [destruct Y as [Y|[]]; discriminate Y|destruct Y]. }
  rewrite <- (given_parts _ _ _ given_freq _ _ Gv) in Ev.
  destruct (given_last ts tn gb Gv) as (gb1 & n & g & -> & _ & Gn). pose proof (given_freq _ _ Gn) as Sn. cbn [fst snd] in Sn.
  destruct (C33_method_b env o 0 gs0 gb1 n g 0 c out p earlier evs c1 c2 fs tuned es H HT OJ Rg P0 T3 (pi_stays _ _ Pi) (pi_anyway _ _ _ Pi)) as (out' & line & Eo & X1 & X2 & X3 & _); try assumption.
  - rewrite Sn. exact Nn.
  - exists out', line. split; [exact Eo|]. repeat split; assumption.
Qed.
Print Assumptions C117_method_b.

(* Enhanced RadioText in groups of type ty, announced in ta, of which the parts in tb and tn, in any order and repeated, amount
   to a complete text (C111) *)
Theorem C117_enhanced_radiotext : forall env o clock t input p ta tb tn ty m cs l,
  host_ok env -> host_text env -> o_output_type o = OutJSON -> p <> 0 ->
  heard (o_use_fec o) input p ((ta ++ tb) ++ [tn]) -> In ty for_applications -> in_utf8 m ->
  let found := found_in (o_use_fec o) input in ert_only ty m found -> ert_whole ty found -> ert_short ty found ->
  In (ty, 0x6552) (flat_map tx_assigns ta) -> ert_part ty tn <> [] ->
  complete_text 64 (flat_map (ert_part ty) (tb ++ [tn])) l -> Forall scalar cs -> map visible l = utf8_text cs ->
  shown env o clock t input (fun line => exists s, says line ["enhanced_radiotext"] (VStr s) /\ trimmed (utf8_text cs) s).
Proof.
  intros env o clock t input p ta tb tn ty m cs l H HT OJ P0 Hd Ta U found Oy Wh Sh An Nn Cm Fc Vl.
  apply (heard_line env o H clock t input p _ _ Hd). intros gs0 gb c out (Rg & T3 & Pi & Gv & Fi) Er.
  destruct (given_last (ta ++ tb) tn gb Gv) as (gb1 & n & g & -> & G1 & Gn). apply Forall2_app_inv_l in G1. destruct G1 as (ga & gb & Ga & Gb & ->).
  pose proof (given_ert ty _ _ Gn) as Sn. cbn [fst snd] in Sn. rewrite <- !app_assoc in *.
  rewrite <- (given_parts _ _ _ given_assigns _ _ Ga) in An.
  assert (Gl : Forall2 given (tb ++ [tn]) (gb ++ [(n, g, 0)])) by (apply Forall2_app; [exact Gb|repeat constructor; exact Gn]).
  rewrite <- (given_parts _ _ _ (given_ert ty) _ _ Gl) in Cm.
  destruct (C111_enhanced_radiotext env o 0 gs0 ga gb n g 0 c out p ty m cs l H HT OJ Rg P0 T3 (pi_stays _ _ Pi)) as (out' & line & s & Eo & S & Tr); try assumption.
  - apply Forall_forall. intros x X _. rewrite Forall_forall in Pi. exact (Pi x X).
  - intros t' a m' X. apply in_flat_map in X. destruct X as (x & X1 & X2). apply (Oy t' a m'). apply in_flat_map. exists x. split; [apply Fi, X1|exact X2].
  - intros g' X. apply (Wh g'). apply Fi, X.
  - unfold ert_short in *. rewrite Forall_forall in *. intros x X. apply in_flat_map in X. destruct X as (y & X1 & X2). apply Sh. apply in_flat_map. exists y. split; [apply Fi, X1|exact X2].
  - rewrite Sn. exact Nn.
  - exists out', line. split; [exact Eo|]. exists s. split; assumption.
Qed.
Print Assumptions C117_enhanced_radiotext.

(* RadioText Plus: ta assigns it to group types; t1 is the first of its groups for an item; tb are groups of any kind, among them
   all characters of a text l in order, then any of them again; tn is another RadioText Plus group of the same item, with the tags
   g1 and g2.  The characters they tag are shown (C29). *)
Theorem C117_tags : forall env o clock t input p ta t1 tb tn flag v l again g1 g2,
  host_ok env -> host_text env -> o_output_type o = OutJSON -> p <> 0 ->
  heard (o_use_fec o) input p ((ta ++ t1 :: tb) ++ [tn]) ->
  In (tx_group_type t1) for_applications -> assigned_last (tx_group_type t1) (flat_map tx_assigns ta) rtplus ->
  In (tx_group_type tn) for_applications -> assigned_last (tx_group_type tn) (flat_map tx_assigns ((ta ++ t1 :: tb) ++ [tn])) rtplus ->
  (forall x, In x (tb ++ [tn]) -> In (tx_group_type x) for_applications ->
     In (tx_group_type x, rtplus) (flat_map announcement (found_in (o_use_fec o) input)) -> tx_item_bits x = tx_item_bits t1) ->
  uniform flag v (flat_map text_part tb) -> part_writes (flat_map text_part tb) = place 0 l ++ again -> Forall (agrees l) again -> ended (rt_size v) l ->
  (tx2 tn mod 32, tx3 tn, tx4 tn) = tag_words (tx_item_bits t1) g1 g2 -> tags_ok g1 g2 ->
  Forall (fun x => real x = true -> fits l x) [g1; g2] ->
  shown env o clock t input (fun line => exists vs, Forall2 (shows_tag l) (filter real [g1; g2]) vs /\
    line_at ["radiotext_plus"; "tags"] line = match vs with [] => None | _ => Some (VArr vs) end /\
    says line ["radiotext_plus"; "item_running"] (VBool (snd (tx_item_bits t1)))).
Proof.
  intros env o clock t input p ta t1 tb tn flag v l again g1 g2 H HT OJ P0 Hd A1 L1 A L Sm Un Wr Ag En Tw Tok Fs.
  apply (heard_line env o H clock t input p _ _ Hd). intros gs0 gb c out (Rg & T3 & Pi & Gv & Fi) Er.
  rewrite <- (given_parts _ _ _ given_assigns _ _ Gv) in L.
  destruct (given_last (ta ++ t1 :: tb) tn gb Gv) as (gb1 & n & g & -> & G1 & Gn). apply Forall2_app_inv_l in G1. destruct G1 as (ga & gc & Ga & Gc & ->).
  inversion Gc as [|? [[n1 k1] w1] ? gb Gk Gb]; subst. destruct (given_facts _ _ _ _ Gk) as (-> & Tk & Tyk & _ & K2 & _).
  destruct (given_facts _ _ _ _ Gn) as (_ & T & Ty & (_ & _ & R3 & R4) & G2 & G3 & G4).
  rewrite <- (given_parts _ _ _ given_assigns _ _ Ga) in L1. rewrite <- (given_parts _ _ _ given_text _ _ Gb) in Un, Wr.
  fold (tx_group_type t1) in Tyk. fold (tx_group_type tn) in Ty. assert (Ib : item_bits k1 = tx_item_bits t1) by (unfold item_bits, tx_item_bits; rewrite K2; reflexivity).
  assert (App : forall x n0 g0, given x (n0, g0, 0) -> In (tx_group_type x) for_applications -> app_group (g0, 0) = true).
  { intros x n0 g0 X Y. destruct (given_facts _ _ _ _ X) as (_ & Tx & Tyx & _). fold (tx_group_type x) in Tyx. unfold app_group. cbn [fst snd]. rewrite Tx, Tyx. cbn [N.eqb andb].
    apply existsb_exists. exists (tx_group_type x). split; [exact Y|]. destruct (tx_group_type x) as [a b]. unfold GroupType_eqb. cbn. rewrite N.eqb_refl. destruct b; reflexivity. }
  destruct (C29_tags_are_the_tagged_characters env o 0 p gs0 ga n1 k1 gb n g l g1 g2 c out H HT OJ) as (out' & line & vs & Eo & X1 & X2 & X3 & _); [|exact Fs|exact Er|].
  - split; [exact Rg|]. split; [exact P0|]. split; [exact T3|]. split; [exact (pi_stays _ _ Pi)|]. split; [apply Forall_forall; intros x X _; rewrite Forall_forall in Pi; exact (Pi x X)|].
    split; [exact (App _ _ _ Gk A1)|]. split; [rewrite Tyk; exact L1|]. split; [exact (App _ _ _ Gn A)|]. split; [rewrite Ty; exact L|].
    split; [|split; [exists flag, v, again; repeat split; assumption|split; [exact R3|split; [exact R4|split; [rewrite G2, G3, G4, Ib; exact Tw|exact Tok]]]]].
    assert (Gl : Forall2 given (tb ++ [tn]) (gb ++ [(n, g, 0)])) by (apply Forall2_app; [exact Gb|repeat constructor; exact Gn]).
    change (groups_of gb ++ [(g, 0)]) with (groups_of gb ++ groups_of [(n, g, 0)]). unfold groups_of at 1 2. rewrite <- map_app.
    intros x X [Xa Xo]. apply in_map_iff in X. destruct X as ([[nx gx] wx] & <- & X). cbn [fst snd] in *.
    destruct (Forall2_In_r _ _ _ _ Gl X) as (tx & It & Gx). destruct (given_facts _ _ _ _ Gx) as (-> & Tx & Tyx & _ & X2 & _). fold (tx_group_type tx) in Tyx.
    rewrite Ib, <- (Sm tx It).
    + unfold item_bits, tx_item_bits. rewrite X2. reflexivity.
    + unfold app_group in Xa. cbn [fst snd] in Xa. rewrite Tx, Tyx in Xa. cbn [N.eqb andb] in Xa. apply existsb_exists in Xa. destruct Xa as (y & Y1 & Y2). apply ErtP.eqb_types in Y2. congruence.
    + rewrite <- Tyx. apply in_flat_map in Xo. destruct Xo as (y & Y1 & Y2). apply in_flat_map. exists y. split; [apply Fi, Y1|exact Y2].
  - exists out', line. split; [exact Eo|]. exists vs. rewrite Ib in X3. repeat split; assumption.
Qed.
Print Assumptions C117_tags.

(* --- groups that are heard, as in the cases of P_Heard --- *)
Definition flags_last : TxGroup := mkTx 0x1234 0x0417 0xE0CD 0x4142.
Example C117_flags_case : heard true (from_air [] flags_last) 0x1234 ([] ++ [flags_last]) /\ tx_type flags_last 0 false = true.
Proof. split; [by_air (@nil TxGroup) flags_last|reflexivity]. Qed.
(* Finnish, and a programme item on the 5th at 20:15 *)
Definition label_last : TxGroup := mkTx 0x1234 0x1400 0x3027 (pin_of 5 20 15).
Example C117_label_case : heard true (from_air [] label_last) 0x1234 ([] ++ [label_last]) /\ heard true (from_chaos ([] ++ [label_last])) 0x1234 ([] ++ [label_last]) /\
  tx_type label_last 1 false = true /\ (tx3 label_last / 2 ^ 12) mod 2 ^ 3 = 3 /\ language_name (tx3 label_last mod 256) = bs "Finnish".
Proof. split; [by_air (@nil TxGroup) label_last|]. split; [apply by_chaos; repeat constructor; vm_compute; reflexivity|]. repeat split; vm_compute; reflexivity. Qed.
Definition other_last : TxGroup := mkTx 0x1234 0xE415 0x3D10 0x6203.
Example C117_other_network_case : heard true (from_air [] other_last) 0x1234 ([] ++ [other_last]) /\ tx_type other_last 14 false = true /\
  tx2 other_last mod 2 ^ 4 = 5 /\ tx_freq_ok (TxFM (tx3 other_last mod 256)) /\ freq_kHz (TxFM (tx3 other_last mod 256)) = 89100.
Proof. split; [by_air (@nil TxGroup) other_last|]. split; [reflexivity|]. split; [reflexivity|]. split; [vm_compute; split; discriminate|reflexivity]. Qed.
Definition announce_last : TxGroup := mkTx 0x1234 0x3410 0x0066 0xCD46.
Example C117_announcement_case : heard true (from_air [] announce_last) 0x1234 ([] ++ [announce_last]) /\ tx_type announce_last 3 false = true /\
  In (tx4 announce_last, "RDS-TMC: ALERT-C") app_names.
Proof. split; [by_air (@nil TxGroup) announce_last|]. split; [reflexivity|]. vm_compute. tauto. Qed.
(* The list of the case of C33 *)
Definition b_groups : list TxGroup := [mkTx 0x1234 0x0408 (231 * 256 + 105) 0x4142; mkTx 0x1234 0x0409 (95 * 256 + 105) 0x4344; mkTx 0x1234 0x0408 (105 * 256 + 120) 0x4142].
Definition b_last : TxGroup := mkTx 0x1234 0x0409 (105 * 256 + 85) 0x4344.
Example C117_method_b_case : heard true (from_chaos (b_groups ++ [b_last])) 0x1234 (b_groups ++ [b_last]) /\ freq_codes b_last <> [] /\
  flat_map freq_codes (b_groups ++ [b_last]) = [] ++ [AfCodes 231 105; AfCodes 95 105; AfCodes 105 120] ++ [AfCodes 105 85].
Proof. split; [apply by_chaos; repeat constructor; vm_compute; reflexivity|]. split; [discriminate|reflexivity]. Qed.
(* The text of the case of C111 *)
Definition ert_start : list TxGroup := [mkTx 0x1234 0x3416 0x0001 0x6552].
Definition ert_middle : list TxGroup := [mkTx 0x1234 0xB401 0x6E21 0x0D20; mkTx 0x1234 0xB400 0x4BC3 0xB66C].
Definition ert_end : TxGroup := mkTx 0x1234 0xB401 0x6E21 0x0D20.
Definition ert_input : bytes := from_air (ert_start ++ ert_middle) ert_end.
Lemma only_by : forall t m found l, flat_map app_items found = l ->
  (forall t' a m', In (Announced t' a m') l -> (a = 0x6552 \/ t' = t -> t' = t /\ a = 0x6552 /\ m' = m) /\ a <> 0x4BD8) -> ert_only t m found.
Proof. intros t m found l <- X. exact X. Qed.
Example C117_enhanced_case : let ty := mkGroupType 11 VA in let found := found_in true ert_input in
  heard true ert_input 0x1234 ((ert_start ++ ert_middle) ++ [ert_end]) /\ In ty for_applications /\ in_utf8 1 /\
  ert_only ty 1 found /\ ert_whole ty found /\ ert_short ty found /\ In (ty, 0x6552) (flat_map tx_assigns ert_start) /\ ert_part ty ert_end <> [] /\
  complete_text 64 (flat_map (ert_part ty) (ert_middle ++ [ert_end])) (utf8_text [75; 0xF6; 108; 110; 33] ++ [end_of_text]).
Proof.
  intros ty found. split; [unfold ert_input; by_air (ert_start ++ ert_middle) ert_end|]. split; [vm_compute; tauto|]. split; [reflexivity|].
  split; [eapply only_by; [vm_compute; reflexivity|]; intros t' a m X; cbn in X; repeat (destruct X as [X|X]; [first [discriminate X|injection X as <- <- <-; split; [intros _; repeat split; reflexivity|discriminate]]|]); destruct X|].
  split. { assert (E : forallb (fun x => blk_is_received (g_b3 (fst x))) found = true) by (vm_compute; reflexivity). rewrite forallb_forall in E. intros g X _ _. exact (E _ X). }
  split. { apply (Forall_by _ (fun pb => fst pb <? 64)); [intros x X; apply N.ltb_lt; exact X|vm_compute; reflexivity]. }
  split; [left; reflexivity|]. split; [discriminate|].
  split; [split|right; exists (utf8_text [75; 0xF6; 108; 110; 33]); split; [reflexivity|vm_compute; intuition discriminate]].
  - change (N.of_nat (length (utf8_text [75; 0xF6; 108; 110; 33] ++ [end_of_text]))) with 7.
    set (ws := flat_map _ _). vm_compute in ws. subst ws.
    apply (sequence_is 7 _ [(4, 0x6E); (5, 0x21); (6, 0x0D); (7, 0x20)] 75 _ eq_refl). reflexivity.
  - intros i b Hi. do 7 (destruct i as [|i]; [cbn in Hi; injection Hi as <-; vm_compute; reflexivity|]). destruct i; discriminate Hi.
Qed.
(* The text and the tags of the case of C29 *)
Definition plus_assign : list TxGroup := [mkTx 0x1234 0x3416 0x0000 0x4BD7].
Definition plus_first : TxGroup := mkTx 0x1234 0xB418 0x0000 0x0000.
Definition plus_text : list TxGroup := [mkTx 0x1234 0x2400 0x4162 0x8261; mkTx 0x1234 0x2401 0x2053 0x6F73; mkTx 0x1234 0x2402 0x0D20 0x2020; plus_first].
Definition plus_last : TxGroup := mkTx 0x1234 0xB418 0x8006 0x08A2.
Example C117_tags_case : let ts := (plus_assign ++ plus_first :: plus_text) ++ [plus_last] in let g1 := mkTag 4 0 4 in let g2 := mkTag 1 5 3 in
  heard true (from_air (plus_assign ++ plus_first :: plus_text) plus_last) 0x1234 ts /\
  In (tx_group_type plus_first) for_applications /\ assigned_last (tx_group_type plus_first) (flat_map tx_assigns plus_assign) rtplus /\
  assigned_last (tx_group_type plus_last) (flat_map tx_assigns ts) rtplus /\
  (forall x, In x (plus_text ++ [plus_last]) -> In (tx_group_type x) for_applications -> tx_item_bits x = tx_item_bits plus_first) /\
  uniform false VA (flat_map text_part plus_text) /\ part_writes (flat_map text_part plus_text) = place 0 abea ++ [(9, 0x20); (10, 0x20); (11, 0x20)] /\
  Forall (agrees abea) [(9, 0x20); (10, 0x20); (11, 0x20)] /\ ended (rt_size VA) abea /\
  (tx2 plus_last mod 32, tx3 plus_last, tx4 plus_last) = tag_words (tx_item_bits plus_first) g1 g2 /\ tags_ok g1 g2 /\ fits abea g1 /\ fits abea g2.
Proof.
  intros ts g1 g2. split; [by_air (plus_assign ++ plus_first :: plus_text) plus_last|]. split; [vm_compute; tauto|].
  split; [exists [], []; split; [reflexivity|intros b []]|]. split; [exists [], []; split; [reflexivity|intros b []]|].
  split. { intros x X A. cbn in X. repeat (destruct X as [<-|X]; [first [reflexivity|exfalso; vm_compute in A; repeat (destruct A as [A|A]; [discriminate A|]); destruct A]|]). destruct X. }
  split; [repeat constructor; reflexivity|]. split; [vm_compute; reflexivity|]. split; [repeat (constructor; [left; discriminate|]); constructor|].
  split; [left; exists (removelast abea); split; [reflexivity|cbn; intuition discriminate]|].
  split; [vm_compute; reflexivity|]. split; [repeat split; vm_compute; (reflexivity || discriminate)|]. split.
  - split; [reflexivity|]. split; [left; reflexivity|exists 0x61; split; reflexivity].
  - split; [reflexivity|]. split; [right; exists 0x20; split; reflexivity|exists 0x73; split; reflexivity].
Qed.
