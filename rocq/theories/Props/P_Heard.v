(* C117: what a station sends is shown from the bits on the air, and again after any disturbance. *)
From Verif.Model Require Import Base Util Float Group BlockSync Options Json Tmc Tables Station Input Channel Dsp Main.
From Verif.Spec Require Import RdsCode RdsStream Reception Inputs Unicode JsonText Session Identity Frequencies Calendar Clock Texts History Host Program Cases Recording OnAir Recovery Apps Traffic Heard.
From Verif.Proofs Require Import Tac Syndrome Ring ChannelP EndP LossP BlockSyncP BlockSyncR BlockSyncT BlockSyncD BlockSyncA BlockSyncG BlockSyncE BlockSyncX RecordP AirP BlockSyncS PartsP AgainTextP HeardP.
From Verif.Props Require Import P_Channel P_Recording P_OnAir P_Recovery P_Again P_Parts P_Freq P_Tmc.

Local Open Scope string_scope.
Local Open Scope N_scope.
Local Open Scope list_scope.

(* --- C117 --- *)
(* In all of these the input is of '0' and '1', and the groups ts and tn of station p are heard in it: they follow after
   the receiver got into sync in any way, or after any disturbance and 14 groups without errors (Spec/Heard.v). *)

(* The clock time *)
Theorem C117_clock_time : forall env o clock t input p tn day hour minute west units,
  host_ok env -> host_text env -> plain_clock env -> o_output_type o = OutJSON -> p <> 0 ->
  heard (o_use_fec o) input p [tn] -> clock_sent tn day hour minute west units ->
  15079 <= day <= 88127 -> hour <= 23 -> minute <= 59 -> units <= 29 ->
  exists items line more, processASCIIBitsInput env o clock t input = Ok (EXIT_SUCCESS, items ++ [Line 0 line] ++ more) /\
    says line ["clock_time"] (VStr (iso_local
      (Z.of_N day * 1440 + Z.of_N hour * 60 + Z.of_N minute + half_hours west units * 30) (half_hours west units))).
Proof.
  intros env o clock t input p tn day hour minute west units H HT Pc OJ P0 Hd (Ct & C2 & C3 & C4) Bd Bh Bm Bu.
  apply (heard_line env o H clock t input p [tn] _ Hd). intros gs0 gb c out (Rg & T3 & Pi & Gv & Fi) Er.
  destruct (given_last [] tn gb Gv) as (gb1 & n & g & -> & G0 & Gn). inversion G0; subst. cbn [app] in *.
  destruct (last_shown (fun _ _ => True) env o H HT OJ (fun _ => I) (fun _ _ => I) (fun _ _ _ _ => I) (fun _ _ _ _ _ _ _ _ _ _ _ _ _ => I)
    0 gs0 [] n g 0 c out p Rg P0 T3 (pi_stays _ _ Pi) (Forall_inv Pi) Er) as (_ & _ & out0 & out1 & ln & _ & _ & _ & _ & Eo & _).
  destruct (run_snoc env o gs0 n g 0 _ _ _ Er) as (c1 & out2 & line & E1 & Eg & Eo2).
  assert (El : line = Some ln). { rewrite Eo2, app_assoc in Eo. apply app_inj_tail in Eo. exact (proj2 Eo). }
  exists out2, ln. split; [congruence|]. rewrite El in Eg.
  destruct (given_facts tn n g 0 Gn) as (_ & T & Ty & (_ & R2 & R3 & R4) & G2 & G3 & G4).
  unfold tx_type in Ct. apply andb_prop in Ct. destruct Ct as [Cn Cv]. apply N.eqb_eq in Cn. rewrite Cn in Ty. destruct (N.testbit (tx2 tn) 11); [discriminate|].
  apply Forall_app in Rg. destruct Rg as [Rg0 Rg1]. pose proof (Forall_inv Rg1) as (Bl & _ & Q2 & _ & _).
  eapply (C34_clock_time env o n c1 g day hour minute west units c ln); try eassumption.
  - exists (Channel_new o 0), (map as_call gs0). eexists. split; [left; exists 0; reflexivity|]. split; [|exact (session_groups env o gs0 _ _ _ E1)].
    apply Forall_forall. intros y Y. apply in_map_iff in Y. destruct Y as ([[n1 g1] w1] & <- & Y). cbn [as_call possible].
    rewrite Forall_forall in Rg0. destruct (Rg0 _ Y) as [B1 _]. split; [exact B1|].
    assert (X : In (g1, w1) (found_in (o_use_fec o) input)).
    { apply Fi. unfold groups_of. rewrite map_app. apply in_or_app. left. apply in_map_iff. exists (n1, g1, w1). split; [reflexivity|exact Y]. }
    unfold found_in in X. apply in_map_iff in X. destruct X as (g2 & X & _). assert (w1 = 0) as -> by congruence. reflexivity.
  - split; assumption.
  - unfold carries_clock. rewrite R2, R3, R4, G2, G3, G4. rewrite G2 in Q2. repeat split; try assumption; try lia.
Qed.
Print Assumptions C117_clock_time.

(* The programme type name, of which the parts in ts and tn, in any order and repeated, amount to a complete text (C111) *)
Theorem C117_type_name : forall env o clock t input p ts tn f l,
  host_ok env -> host_text env -> o_output_type o = OutJSON -> p <> 0 ->
  heard (o_use_fec o) input p (ts ++ [tn]) -> type_name_part tn <> [] ->
  uniform f VA (flat_map type_name_part (ts ++ [tn])) -> complete_text 8 (part_writes (flat_map type_name_part (ts ++ [tn]))) l ->
  exists items line more, processASCIIBitsInput env o clock t input = Ok (EXIT_SUCCESS, items ++ [Line 0 line] ++ more) /\
    says line ["pty_name"] (VStr (rds_text l)).
Proof.
  intros env o clock t input p ts tn f l H HT OJ P0 Hd Nn Un Cm.
  apply (heard_line env o H clock t input p (ts ++ [tn]) _ Hd). intros gs0 gb c out (Rg & T3 & Pi & Gv & _) Er.
  rewrite <- (given_parts _ _ _ given_type_name _ _ Gv) in Un, Cm.
  destruct (given_last ts tn gb Gv) as (gb1 & n & g & -> & _ & Gn). pose proof (given_type_name _ _ Gn) as Sn. cbn [fst snd] in Sn.
  apply (C111_type_name env o 0 gs0 gb1 n g 0 c out p f l H HT OJ Rg P0 T3 (pi_stays _ _ Pi) (pi_anyway _ _ _ Pi)); [rewrite Sn; exact Nn|exact Un|exact Cm|exact Er].
Qed.
Print Assumptions C117_type_name.

(* The long name, if groups 15A are not announced for an application *)
Theorem C117_long_name : forall env o clock t input p ts tn cs l,
  host_ok env -> host_text env -> o_output_type o = OutJSON -> p <> 0 ->
  heard (o_use_fec o) input p (ts ++ [tn]) -> not_announced (mkGroupType 15 VA) (found_in (o_use_fec o) input) ->
  long_name_part tn <> [] -> complete_text 32 (flat_map long_name_part (ts ++ [tn])) l -> Forall scalar cs -> map visible l = utf8_text cs ->
  exists items line more, processASCIIBitsInput env o clock t input = Ok (EXIT_SUCCESS, items ++ [Line 0 line] ++ more) /\
    exists s, says line ["long_ps"] (VStr s) /\ trimmed (utf8_text cs) s.
Proof.
  intros env o clock t input p ts tn cs l H HT OJ P0 Hd Na Nn Cm Fc Vl.
  apply (heard_line env o H clock t input p (ts ++ [tn]) _ Hd). intros gs0 gb c out (Rg & T3 & Pi & Gv & Fi) Er.
  rewrite <- (given_parts _ _ _ given_long_name _ _ Gv) in Cm.
  destruct (given_last ts tn gb Gv) as (gb1 & n & g & -> & _ & Gn). pose proof (given_long_name _ _ Gn) as Sn. cbn [fst snd] in Sn.
  destruct (C111_long_name env o 0 gs0 gb1 n g 0 c out p cs l H HT OJ Rg P0 T3 (pi_stays _ _ Pi) (pi_anyway _ _ _ Pi)) as (out' & line & s & Eo & S & Tr); try assumption.
  - rewrite Sn. exact Nn.
  - intros a X. apply (Na a). apply in_flat_map in X. destruct X as (x & X1 & X2). apply in_flat_map. exists x. split; [apply Fi, X1|exact X2].
  - exists out', line. split; [exact Eo|]. exists s. split; assumption.
Qed.
Print Assumptions C117_long_name.

(* A list of alternative frequencies by method A *)
Theorem C117_frequencies : forall env o clock t input p ts tn earlier evs c1 c2 fs,
  host_ok env -> host_text env -> o_output_type o = OutJSON -> p <> 0 ->
  heard (o_use_fec o) input p (ts ++ [tn]) -> freq_codes tn <> [] ->
  flat_map freq_codes (ts ++ [tn]) = earlier ++ evs ++ [AfCodes c1 c2] ->
  af_transmission fs (codes_of (evs ++ [AfCodes c1 c2])) -> c1 <> filler \/ c2 <> filler -> NoDup (map freq_kHz fs) ->
  exists items line more, processASCIIBitsInput env o clock t input = Ok (EXIT_SUCCESS, items ++ [Line 0 line] ++ more) /\
    shows_numbers line ["alt_frequencies_a"] (map freq_kHz fs) /\ lacks line "alt_frequencies_b".
Proof.
  intros env o clock t input p ts tn earlier evs c1 c2 fs H HT OJ P0 Hd Nn Ev Tr Nf Nd.
  apply (heard_line env o H clock t input p (ts ++ [tn]) _ Hd). intros gs0 gb c out (Rg & T3 & Pi & Gv & _) Er.
  rewrite <- (given_parts _ _ _ given_freq _ _ Gv) in Ev.
  destruct (given_last ts tn gb Gv) as (gb1 & n & g & -> & _ & Gn). pose proof (given_freq _ _ Gn) as Sn. cbn [fst snd] in Sn.
  apply (C32_method_a env o 0 gs0 gb1 n g 0 c out p earlier evs c1 c2 fs H HT OJ Rg P0 T3 (pi_stays _ _ Pi) (pi_anyway _ _ _ Pi)); [rewrite Sn; exact Nn|exact Ev|exact Tr|exact Nf|exact Nd|exact Er].
Qed.
Print Assumptions C117_frequencies.

(* Traffic messages.  TMC is assigned to groups 8A and only to them, by all announcements found in the input, and is not encrypted. *)
Definition plain_traffic (found : list (Group * N)) : Prop :=
  let l := flat_map app_items found in tmc_in_8A l /\ stays_tmc l /\ never_encrypted l.
Lemma from_bits : forall o input p ts gs0 gb, p <> 0 -> plain_traffic (found_in (o_use_fec o) input) -> situation o input p ts gs0 gb ->
  traffic_from p gs0 gb /\ never_encrypted (items_of (gs0 ++ gb)) /\ items_of gb = flat_map tx_items ts.
Proof.
  intros o input p ts gs0 gb P0 (A & B & C) (Rg & T3 & Pi & Gv & Fi).
  assert (X : forall i, In i (items_of (gs0 ++ gb)) -> In i (flat_map app_items (found_in (o_use_fec o) input))).
  { intros i X. apply in_flat_map in X. destruct X as (x & X1 & X2). apply in_flat_map. exists x. split; [apply Fi, X1|exact X2]. }
  split; [|split].
  - repeat split; try assumption; [exact (pi_stays _ _ Pi)|exact (pi_anyway _ _ _ Pi)| |].
    + intros t a m Y. apply (A t a m), X, Y.
    + intros a m Y. apply (B a m), X, Y.
  - intros t a m Y. apply (C t a m), X, Y.
  - exact (given_parts _ _ _ given_items _ _ Gv).
Qed.

(* A message of one group *)
Theorem C117_traffic_message : forall env o clock t input p ts tn ms flag duration,
  host_ok env -> host_text env -> o_output_type o = OutJSON -> p <> 0 ->
  heard (o_use_fec o) input p (ts ++ [tn]) -> plain_traffic (found_in (o_use_fec o) input) -> tmc_started (flat_map tx_items ts) ->
  message_ok ms -> ms_fields ms = [] -> duration < 8 -> user_groups (tx_items tn) = [single_group ms flag duration] ->
  exists items line more, processASCIIBitsInput env o clock t input = Ok (EXIT_SUCCESS, items ++ [Line 0 line] ++ more) /\
    shows_message (env_tmc env) line ms.
Proof.
  intros env o clock t input p ts tn ms flag duration H HT OJ P0 Hd Pl St Mok Nf Dr U.
  apply (heard_line env o H clock t input p (ts ++ [tn]) _ Hd). intros gs0 gb c out S Er.
  destruct (from_bits o input p _ gs0 gb P0 Pl S) as (T & Ne & _). destruct S as (_ & _ & _ & Gv & _).
  destruct (given_last ts tn gb Gv) as (gb1 & n & g & -> & G1 & Gn). pose proof (given_items _ _ Gn) as Sn. cbn [fst snd] in Sn.
  apply (C69_single_group_message env o 0 gs0 gb1 n g 0 c out p ms flag duration H HT OJ T); try assumption.
  - intros t' a m Y. apply (Ne t' a m). unfold items_of, groups_of in *. rewrite !map_app, !flat_map_app in *. rewrite !in_app_iff in *. tauto.
  - unfold items_of. rewrite (given_parts _ _ _ given_items _ _ G1). exact St.
  - rewrite Sn. exact U.
Qed.
Print Assumptions C117_traffic_message.

(* A message of two to five groups (see C43 and C116) *)
Theorem C117_long_traffic_message : forall env o clock t input p ts tn ms l1 l2 earlier ci groups,
  host_ok env -> host_text env -> o_output_type o = OutJSON -> p <> 0 ->
  heard (o_use_fec o) input p (ts ++ [tn]) -> plain_traffic (found_in (o_use_fec o) input) ->
  flat_map tx_items (ts ++ [tn]) = l1 ++ l2 -> tmc_started l1 ->
  message_ok ms -> sent_in ms groups -> (2 <= length groups <= 5)%nat -> multi_groups l2 = earlier ++ map (pair ci) groups -> multi_groups (tx_items tn) <> [] ->
  exists items line more, processASCIIBitsInput env o clock t input = Ok (EXIT_SUCCESS, items ++ [Line 0 line] ++ more) /\
    exists fs1, (fs1 = ms_fields ms \/ (length groups = 3 \/ length groups = 4)%nat /\ in_second_group (ms_fields ms) fs1) /\
      shows_message (env_tmc env) line (with_fields ms fs1).
Proof.
  intros env o clock t input p ts tn ms l1 l2 earlier ci groups H HT OJ P0 Hd Pl El St Mok Sn Ln Em Nm.
  apply (heard_line env o H clock t input p (ts ++ [tn]) _ Hd). intros gs0 gb c out S Er.
  destruct (from_bits o input p _ gs0 gb P0 Pl S) as (T & Ne & It). destruct S as (_ & _ & _ & Gv & _). rewrite <- It in El. clear It.
  destruct (given_last ts tn gb Gv) as (gb1 & n & g & -> & G1 & Gn). pose proof (given_items _ _ Gn) as Si. cbn [fst snd] in Si.
  destruct (C116_not_mixed env o 0 gs0 gb1 n g 0 c out p ms l1 l2 earlier ci groups H HT OJ T Ne El St Mok Sn Ln Em) as (out' & line & fs1 & Eo & F1 & Sm); [rewrite Si; exact Nm|exact Er|].
  exists out', line. split; [exact Eo|]. exists fs1. split; assumption.
Qed.
Print Assumptions C117_long_traffic_message.

(* --- groups that are heard, with a wrong bit in the last one, or after a bit was received twice --- *)
Definition from_air (ts : list TxGroup) (tn : TxGroup) : bytes :=
  bit_text (tx_bits t0 ++ flat_map rx_bits (air0 ++ map (fun t => (t, no_error)) ts ++ [(tn, (0, 0, 4, 0))])).
Definition from_chaos (ts : list TxGroup) : bytes :=
  bit_text (slipped ++ flat_map tx_bits (stations 14) ++ flat_map tx_bits (again1 ++ ts) ++ again_rest).
Ltac received_with_errors :=
  repeat (apply Forall_cons; [split; [repeat split; vm_compute; reflexivity|]|]); [..|apply Forall_nil];
  repeat match goal with
  | |- _ /\ _ => split
  | |- fixable _ 0 => left; reflexivity
  | |- fixable _ _ => right; split; [reflexivity|apply short_burst_In; vm_compute; tauto]
  | |- _ -> _ => vm_compute; try discriminate; reflexivity
  end.
Ltac by_air ts tn :=
  left; exists air_pre, air_bit, [tx_block OffD (tx4 t0)], air0, (map (fun t => (t, no_error)) ts ++ [(tn, (0, 0, 4, 0))]), [];
  split; [reflexivity|]; split; [vm_compute; reflexivity|]; split; [cbn; lia|]; split; [split; vm_compute; reflexivity|];
  split; [repeat constructor; vm_compute; reflexivity|]; split; [cbn [app map]; received_with_errors|];
  split; [apply kept_dec; vm_compute; reflexivity|]; split; [vm_compute; reflexivity|]; split; [repeat constructor|cbn; lia].
Lemma bit_text_characters : forall bits, bit_characters (bit_text bits) = bits.
Proof. intros bits. unfold bit_characters, bit_text. induction bits as [|b bits IH]; [reflexivity|]. destruct b; cbn; rewrite IH; reflexivity. Qed.
Lemma by_chaos : forall ts, Forall tx_ok ts -> Forall (fun x => tx1 x = 0x1234) ts -> heard true (from_chaos ts) 0x1234 ts.
Proof.
  intros ts F P. right. exists slipped, (stations 14), again1, again_rest. cbv zeta. split; [unfold from_chaos; rewrite bit_text_characters, <- app_assoc; reflexivity|].
  split; [reflexivity|]. split; [apply stations_ok; lia|].
  split; [apply Forall_app; split; [repeat apply Forall_cons; try apply Forall_nil; vm_compute; repeat split|exact F]|].
  split; [rewrite slipped_14; cbn [length]; lia|].
  split; [apply no_rhythm; [vm_compute; reflexivity|]; rewrite slipped_14; vm_compute; reflexivity|].
  split; [apply Forall_app; split; [repeat constructor|exact P]|cbn; lia].
Qed.

(* 2024-01-28 12:34 UTC, one hour east *)
Definition the_clock : TxGroup := mkTx 0x1234 0x4401 0xD762 0xC882.
Example C117_clock_case : heard true (from_air [] the_clock) 0x1234 [the_clock] /\ heard true (from_chaos [the_clock]) 0x1234 [the_clock] /\
  clock_sent the_clock 60337 12 34 false 2.
Proof. split; [by_air (@nil TxGroup) the_clock|]. split; [apply by_chaos; repeat constructor; vm_compute; reflexivity|]. repeat split; vm_compute; reflexivity. Qed.
(* "JAZZ+LIV", its second part first *)
Definition type_parts : list TxGroup := [mkTx 0x1234 0xA411 0x2B4C 0x4956; mkTx 0x1234 0x0408 0xE0CD 0x5261; mkTx 0x1234 0xA410 0x4A41 0x5A5A].
Definition type_last : TxGroup := mkTx 0x1234 0xA411 0x2B4C 0x4956.
Example C117_type_name_case : heard true (from_air type_parts type_last) 0x1234 (type_parts ++ [type_last]) /\ heard true (from_chaos (type_parts ++ [type_last])) 0x1234 (type_parts ++ [type_last]) /\
  type_name_part type_last <> [] /\ uniform true VA (flat_map type_name_part (type_parts ++ [type_last])) /\
  complete_text 8 (part_writes (flat_map type_name_part (type_parts ++ [type_last]))) (bs "JAZZ+LIV").
Proof.
  split; [by_air type_parts type_last|]. split; [apply by_chaos; repeat constructor; vm_compute; reflexivity|]. split; [discriminate|]. split; [cbn; repeat constructor|].
  split; [split|left; split; [reflexivity|cbn; intuition discriminate]].
  - set (ws := part_writes _). vm_compute in ws. subst ws. apply (sequence_is 8 _ [(4, 0x2B); (5, 0x4C); (6, 0x49); (7, 0x56)] 0x4A _ eq_refl). reflexivity.
  - intros i b Hi. do 8 (destruct i as [|i]; [cbn in Hi; injection Hi as <-; vm_compute; reflexivity|]). destruct i; discriminate Hi.
Qed.
(* "Hör" with an end mark *)
Definition long_parts : list TxGroup := [mkTx 0x1234 0xF401 0x200D 0x2020; mkTx 0x1234 0xF400 0x48C3 0xB672].
Definition long_last : TxGroup := mkTx 0x1234 0xF401 0x200D 0x2020.
Example C117_long_name_case : heard true (from_air long_parts long_last) 0x1234 (long_parts ++ [long_last]) /\
  not_announced (mkGroupType 15 VA) (found_in true (from_air long_parts long_last)) /\
  long_name_part long_last <> [] /\ complete_text 32 (flat_map long_name_part (long_parts ++ [long_last])) (utf8_text [72; 0xF6; 114; 32] ++ [end_of_text]) /\
  Forall scalar [72; 0xF6; 114; 32; 32] /\ map visible (utf8_text [72; 0xF6; 114; 32] ++ [end_of_text]) = utf8_text [72; 0xF6; 114; 32; 32].
Proof.
  split; [by_air long_parts long_last|]. split; [intros a; assert (E : flat_map announcement (found_in true (from_air long_parts long_last)) = []) by (vm_compute; reflexivity); rewrite E; intros []|]. split; [discriminate|].
  split; [|split; [repeat constructor; left; reflexivity|reflexivity]].
  split; [split|right; eexists; split; [reflexivity|cbn; intuition discriminate]].
  - set (ws := flat_map _ _). vm_compute in ws. subst ws. apply (sequence_is 6 _ [(4, 0x20); (5, 0x0D); (6, 0x20); (7, 0x20)] 0x48 _ eq_refl). reflexivity.
  - intros i b Hi. do 6 (destruct i as [|i]; [cbn in Hi; injection Hi as <-; vm_compute; reflexivity|]). destruct i; discriminate Hi.
Qed.
(* The list of the case of C32 *)
Definition freq_groups : list TxGroup := [mkTx 0x1234 0x0408 0xE432 0x4142; mkTx 0x1234 0x0409 0xE306 0x4344; mkTx 0x1234 0x0408 0xFA06 0x4142].
Definition freq_last : TxGroup := mkTx 0x1234 0x0409 0xCD73 0x4344.
Example C117_frequencies_case : heard true (from_chaos (freq_groups ++ [freq_last])) 0x1234 (freq_groups ++ [freq_last]) /\ freq_codes freq_last <> [] /\
  flat_map freq_codes (freq_groups ++ [freq_last]) = [AfCodes 228 50] ++ [AfCodes 227 6; AfCodes 250 6] ++ [AfCodes 205 115].
Proof. split; [apply by_chaos; repeat constructor; vm_compute; reflexivity|]. split; [discriminate|reflexivity]. Qed.
(* The messages of the cases of C69 and C116 *)
Definition one_message : list TxGroup := [mkTx 0x1234 0x3410 0x0040 0xCD46].
Definition message_group : TxGroup := mkTx 0x1234 0x8408 0x5065 0x0064.
Lemma plain_by : forall found l, flat_map app_items found = l -> tmc_in_8A l /\ stays_tmc l /\ never_encrypted l -> plain_traffic found.
Proof. intros found l <- X. exact X. Qed.
Ltac plain_all := eapply plain_by; [vm_compute; reflexivity|]; split; [|split];
  [intros t a m X; vm_compute in X; repeat (destruct X as [X|X]; [first [discriminate X|injection X as <- <- <-; reflexivity]|]); destruct X
  |intros a m X; vm_compute in X; repeat (destruct X as [X|X]; [first [discriminate X|injection X as <- <-; reflexivity]|]); destruct X
  |plainly].
Example C117_traffic_case : heard true (from_chaos (one_message ++ [message_group])) 0x1234 (one_message ++ [message_group]) /\
  plain_traffic (found_in true (from_chaos (one_message ++ [message_group]))) /\ tmc_started (flat_map tx_items one_message) /\ message_ok the_jam /\
  user_groups (tx_items message_group) = [single_group the_jam false 0].
Proof.
  split; [apply by_chaos; repeat constructor; vm_compute; reflexivity|]. split; [plain_all|].
  split; [exists type_8A, 0xCD46, 0x0040; split; [left; reflexivity|split; reflexivity]|]. split; [|reflexivity].
  split; [reflexivity|split; [reflexivity|split; [reflexivity|constructor]]].
Qed.
Definition message_5 : list TxGroup := one_message ++ map (fun yz => mkTx 0x1234 0x8405 (fst yz) (snd yz)) (firstn 3 groups_5 ++ removelast groups_5).
Definition message_5_last : TxGroup := mkTx 0x1234 0x8405 0 0.
Example C117_long_traffic_case : heard true (from_air message_5 message_5_last) 0x1234 (message_5 ++ [message_5_last]) /\
  plain_traffic (found_in true (from_air message_5 message_5_last)) /\
  (exists l2, flat_map tx_items (message_5 ++ [message_5_last]) = [Announced type_8A 0xCD46 0x0040] ++ l2 /\ multi_groups l2 = map (pair 5) (firstn 3 groups_5) ++ map (pair 5) groups_5) /\
  tmc_started [Announced type_8A 0xCD46 0x0040] /\ message_ok jam_5 /\ sent_in jam_5 groups_5 /\ multi_groups (tx_items message_5_last) <> [].
Proof.
  split; [by_air message_5 message_5_last|]. split; [plain_all|]. split; [eexists; split; [vm_compute; reflexivity|vm_compute; reflexivity]|].
  split; [exists type_8A, 0xCD46, 0x0040; split; [left; reflexivity|split; reflexivity]|].
  split; [exact (proj1 sent_5)|]. split; [exact (proj2 sent_5)|]. discriminate.
Qed.
