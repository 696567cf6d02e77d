(* C108: from any disturbance to the name of the station. *)
From Verif.Model Require Import Base Util Float Group BlockSync Options Json Tmc Tables Station Input Channel Dsp Main.
From Verif.Spec Require Import RdsCode RdsStream Reception Inputs Unicode JsonText Session Identity Texts History Host Program Cases Recording OnAir Recovery.
From Verif.Proofs Require Import Tac BlockSyncP BlockSyncE BlockSyncS AgainP.
From Verif.Props Require Import P_Recording P_OnAir P_Recovery.

Local Open Scope string_scope.
Local Open Scope N_scope.
Local Open Scope list_scope.

(* --- C108 --- *)
(* bits0: whatever the program received before, from whichever stations, in sync or not.  ts0: 14 groups received without
   error, which meet the conditions of C105.  ts1, ts2 and tn: groups of station p, received without error, at least
   three of them before its name is sent.  rest: whatever follows.  The name is printed. *)
Theorem C108_name_after_any_disturbance : forall env o clock t input bits0 ts0 ts1 ts2 tn rest p earlier n0 n1 n2 n3 n4 n5 n6 n7,
  host_ok env -> host_text env -> o_output_type o = OutJSON ->
  let bits := bits0 ++ flat_map tx_bits ts0 in
  let ts := ts1 ++ ts2 ++ [tn] in
  bit_characters input = bits ++ flat_map tx_bits ts ++ rest ->
  length ts0 = 14%nat -> Forall tx_ok ts0 -> Forall tx_ok ts ->
  (length (chance_blocks bits (length bits0)) <= 7)%nat -> ~ chance_rhythm bits (length bits0) ->
  p <> 0 -> Forall (fun x => tx1 x = p) ts -> (3 <= length ts1)%nat ->
  name_part tn <> [] -> flat_map name_part (ts2 ++ [tn]) = earlier ++ [(0, n0, n1); (1, n2, n3); (2, n4, n5); (3, n6, n7)] ->
  ~ In end_of_text [n0; n1; n2; n3; n4; n5; n6; n7] ->
  exists items line more, processASCIIBitsInput env o clock t input = Ok (EXIT_SUCCESS, items ++ [Line 0 line] ++ more) /\
    says line ["ps"] (VStr (rds_text [n0; n1; n2; n3; n4; n5; n6; n7])).
Proof. exact name_again. Qed.
Print Assumptions C108_name_after_any_disturbance.

(* A bit is received twice; 14 groups of the old station pass; then another station and its name, and noise *)
Definition again1 : list TxGroup := repeat (mkTx 0x1234 0x2400 0x4142 0x4344) 3.
Definition again2 : list TxGroup := [mkTx 0x1234 0x0408 0xE0CD 0x5261; mkTx 0x1234 0x0409 0xE0CD 0x6469; mkTx 0x1234 0x1400 0x4142 0x4344; mkTx 0x1234 0x040A 0xE0CD 0x6F20].
Definition again3 : TxGroup := mkTx 0x1234 0x0C0B 0x1234 0x5820.
Definition again_rest : list bool := [true; true; false; true].
Definition again_input : bytes := bit_text (slipped ++ flat_map tx_bits (stations 14) ++ flat_map tx_bits (again1 ++ again2 ++ [again3]) ++ again_rest).
Example C108_case : let bits := slipped ++ flat_map tx_bits (stations 14) in let ts := again1 ++ again2 ++ [again3] in
  bit_characters again_input = bits ++ flat_map tx_bits ts ++ again_rest /\ Forall tx_ok (stations 14) /\ Forall tx_ok ts /\
  (length (chance_blocks bits (length slipped)) <= 7)%nat /\ ~ chance_rhythm bits (length slipped) /\
  Forall (fun x => tx1 x = 0x1234) ts /\ name_part again3 <> [] /\
  flat_map name_part (again2 ++ [again3]) = [] ++ [(0, 0x52, 0x61); (1, 0x64, 0x69); (2, 0x6F, 0x20); (3, 0x58, 0x20)] /\
  rds_text [0x52; 0x61; 0x64; 0x69; 0x6F; 0x20; 0x58; 0x20] = bs "Radio X ".
Proof.
  cbv zeta. split; [vm_compute; reflexivity|]. split; [apply stations_ok; lia|].
  split; [repeat apply Forall_cons; try apply Forall_nil; vm_compute; repeat split|].
  split; [rewrite slipped_14; cbn [length]; lia|].
  split; [apply no_rhythm; [vm_compute; reflexivity|]; rewrite slipped_14; vm_compute; reflexivity|].
  split; [repeat constructor|]. split; [discriminate|]. split; vm_compute; reflexivity.
Qed.
