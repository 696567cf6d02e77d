(* C76: from the bits on the air to the lines printed. *)
From Verif.Model Require Import Base Util Float Group BlockSync Options Json Tmc Tables Station Input Channel Dsp Main.
From Verif.Spec Require Import RdsCode RdsStream Reception Inputs Unicode JsonText Session Identity Texts History Host Program Cases Recording OnAir.
From Verif.Proofs Require Import Tac Syndrome Ring BlockSyncP BlockSyncR BlockSyncT BlockSyncD BlockSyncA BlockSyncG BlockSyncE BlockSyncX RecordP AirP.
From Verif.Props Require Import P_Recording.

Local Open Scope string_scope.
Local Open Scope N_scope.
Local Open Scope list_scope.

(* --- C76 --- *)
(* The bits of the input: anything that brings the receiver into sync (pre and b), any 26-bit words ws0 up to the end
   of a group, and then the groups tes of one station, with errors the receiver tolerates; at the end, less than a
   block.  The name in these groups, sent in order and ending with the last of them, is on the last line printed. *)
Theorem C76_name_from_bits : forall env o clock t input pre b ws0 tes0 tes1 te rest p earlier n0 n1 n2 n3 n4 n5 n6 n7,
  host_ok env -> host_text env -> o_output_type o = OutJSON ->
  let tes := tes0 ++ tes1 ++ [te] in
  bit_characters input = pre ++ [b] ++ flat_map block_bits ws0 ++ flat_map rx_bits tes ++ rest -> (length rest < 25)%nat ->
  acquires (o_use_fec o) pre b -> Forall (fun w => w < 2 ^ 26) ws0 -> Forall (rx_ok (o_use_fec o)) tes ->
  let first := recognise (window (pre ++ [b])) in
  Reception.kept [false] (err_flags (following first) (ws0 ++ all_words tes)) -> expect_after (following first) ws0 = OffA ->
  p <> 0 -> Forall (fun x => tx1 (fst x) = p) tes -> (3 <= length tes0)%nat ->
  name_part (fst te) <> [] ->
  flat_map (fun x => name_part (fst x)) (tes1 ++ [te]) = earlier ++ [(0, n0, n1); (1, n2, n3); (2, n4, n5); (3, n6, n7)] ->
  ~ In end_of_text [n0; n1; n2; n3; n4; n5; n6; n7] ->
  exists items line, processASCIIBitsInput env o clock t input = Ok (EXIT_SUCCESS, items ++ [Line 0 line]) /\
    says line ["ps"] (VStr (rds_text [n0; n1; n2; n3; n4; n5; n6; n7])).
Proof. exact name_on_air. Qed.
Print Assumptions C76_name_from_bits.

(* What is printed for any bits is what is printed for the groups the receiver finds in them; so what is said about
   groups anywhere here is true of the program reading bits. *)
Theorem C76_bits_as_groups : forall env o clock t input, host_ok env -> exists gs c out,
  map (fun x => snd (fst x)) gs = groups_after (o_use_fec o) [] (ascii_bits input) /\ Forall (fun x => snd x = 0) gs /\ Forall received_group gs /\
  run_groups env o (Channel_new o 0) gs = Ok (c, out) /\
  exists items, processASCIIBitsInput env o clock t input = Ok (EXIT_SUCCESS, items) /\ all_lines items = printed out.
Proof.
  intros env o clock t input H. destruct (bits_as_groups env o clock t input H) as (gs & c & out & M & W & R & E & P).
  exists gs, c, out. split; [exact M|]. split; [exact W|]. split; [exact R|]. split; [exact E|]. eexists. split; [exact P|]. apply all_lines_of.
Qed.
Print Assumptions C76_bits_as_groups.

(* Three groups to be in sync and follow the station, a name of which the third part has a wrong bit, and another group *)
Definition t0 : TxGroup := mkTx 0x1234 0x0408 0xE0CD 0x4142.
Definition no_error : N * N * N * N := (0, 0, 0, 0).
Definition air0 : list (TxGroup * (N * N * N * N)) := repeat (mkTx 0x1234 0x2400 0x4142 0x4344, no_error) 3.
Definition air1 : list (TxGroup * (N * N * N * N)) :=
  [(mkTx 0x1234 0x0408 0xE0CD 0x5261, no_error); (mkTx 0x1234 0x0409 0xE0CD 0x6469, no_error); (mkTx 0x1234 0x1400 0x4142 0x4344, no_error); (mkTx 0x1234 0x040A 0xE0CD 0x6F20, (0, 0, 0, 4))].
Definition air2 : TxGroup * (N * N * N * N) := (mkTx 0x1234 0x0C0B 0x1234 0x5820, no_error).
Definition air_pre : list bool := firstn 77 (tx_bits t0).
Definition air_bit : bool := nth 77 (tx_bits t0) false.
Definition air_input : bytes := bit_text (tx_bits t0 ++ flat_map rx_bits (air0 ++ air1 ++ [air2])).
Example C76_case : let tes := air0 ++ air1 ++ [air2] in let first := recognise (window (air_pre ++ [air_bit])) in let ws0 := [tx_block OffD (tx4 t0)] in
  bit_characters air_input = air_pre ++ [air_bit] ++ flat_map block_bits ws0 ++ flat_map rx_bits tes ++ [] /\
  acquires (o_use_fec Options_default) air_pre air_bit /\ Forall (fun w => w < 2 ^ 26) ws0 /\ Forall (rx_ok (o_use_fec Options_default)) tes /\
  Reception.kept [false] (err_flags (following first) (ws0 ++ all_words tes)) /\ expect_after (following first) ws0 = OffA /\
  Forall (fun x => tx1 (fst x) = 0x1234) tes /\ name_part (fst air2) <> [] /\
  flat_map (fun x => name_part (fst x)) (air1 ++ [air2]) = [] ++ [(0, 0x52, 0x61); (1, 0x64, 0x69); (2, 0x6F, 0x20); (3, 0x58, 0x20)] /\
  rds_text [0x52; 0x61; 0x64; 0x69; 0x6F; 0x20; 0x58; 0x20] = bs "Radio X ".
Proof.
  cbv zeta. split; [vm_compute; reflexivity|]. split; [split; vm_compute; reflexivity|]. split; [repeat constructor; vm_compute; reflexivity|]. split.
  { repeat (apply Forall_cons; [split; [repeat split; vm_compute; reflexivity|]|]); [..|apply Forall_nil];
    repeat match goal with
    | |- _ /\ _ => split
    | |- fixable _ 0 => left; reflexivity
    | |- fixable _ _ => right; split; [reflexivity|apply short_burst_In; vm_compute; tauto]
    | |- _ -> _ => vm_compute; try discriminate; reflexivity
    end. }
  split; [apply kept_dec; vm_compute; reflexivity|]. split; [vm_compute; reflexivity|]. split; [repeat constructor|]. split; [discriminate|]. split; vm_compute; reflexivity.
Qed.
