(* C75: recordings in hexadecimal. *)
From Verif.Model Require Import Base Util Float Group Options Json Tmc Tables Station Input Channel Dsp Main.
From Verif.Spec Require Import RdsCode RdsStream Reception Inputs JsonText Session Identity Texts Apps History Host Program Cases Received Recording.
From Verif.Proofs Require Import Tac RecordP.
From Verif.Props Require Import P_Channel.

Local Open Scope string_scope.
Local Open Scope N_scope.
Local Open Scope list_scope.

(* --- C75 --- *)
(* Bits received now and decoded later from a recording in hexadecimal (option -x or --output hex) give the same
   lines as the bits themselves: when each group is such that its line says all that was received of it; after a
   group of which nothing was received, block 1 is received of the next that is not like it; and blocks 3 and 4
   are received of the groups whose decoders do not check that.  Time of reception and error rate are not in
   the recording: the options that show them are off. *)
Theorem C75_hex_recording : forall env o clock t input, host_ok env -> o_output_type o = OutJSON -> o_timestamp o = false -> o_bler o = false ->
  let gs := groups_after (o_use_fec o) [] (ascii_bits input) in
  Forall recorded gs ->
  (forall before e g after, gs = before ++ e :: g :: after -> missed e -> ~ missed g -> received g BLOCK1 <> None) ->
  (forall before g after, gs = before ++ g :: after -> unchecked (map (fun x => (x, 0)) before) (g, 0) -> received g BLOCK3 <> None /\ received g BLOCK4 <> None) ->
  exists rec items, processASCIIBitsInput env (with_output o OutHex) clock t input = Ok (EXIT_SUCCESS, rec) /\
    processASCIIBitsInput env o clock t input = Ok (EXIT_SUCCESS, items) /\
    forall clock', processHexInput env o clock' (text_file (all_lines rec)) = Ok (EXIT_SUCCESS, items).
Proof. exact hex_recording. Qed.
Print Assumptions C75_hex_recording.

(* Zeros and ones as text *)
Definition bit_text (bits : list bool) : bytes := map (fun b : bool => if b then 49 else 48) bits.
(* Groups, then one with errors in these blocks, and more groups *)
Definition on_tape (gs : list TxGroup) (t : TxGroup) (e : N * N * N * N) (after : list TxGroup) : bytes :=
  bit_text (flat_map tx_bits gs ++ flat_map block_bits (rx_words t e) ++ flat_map tx_bits after).
Definition lost : N := 0x2AAAAAA.
Definition three : list TxGroup := repeat (mkTx 0x1234 0x0408 0xE0CD 0x4142) 3.
Definition later : list TxGroup := [mkTx 0x1234 0x2400 0x4142 0x4344; mkTx 0x1234 0x8401 0x1234 0x5678].

(* Seven groups; of the first, blocks 1 and 2 came before the receiver was in sync; of the fourth, block 4 was lost; of the fifth, everything *)
Definition tape : bytes :=
  bit_text (flat_map tx_bits three ++ flat_map block_bits (rx_words (mkTx 0x1234 0x0409 0xE0CD 0x4344) (0, 0, 0, lost)) ++
    flat_map block_bits (rx_words (mkTx 0x1234 0x040A 0xE0CD 0x4546) (lost, lost, lost, lost)) ++ flat_map tx_bits later).
Example C75_case : let gs := groups_after (o_use_fec Options_default) [] (ascii_bits tape) in
  map (fun g => map (received g) [BLOCK1; BLOCK2; BLOCK3; BLOCK4]) gs =
    [[None; None; Some 0xE0CD; Some 0x4142]; [Some 0x1234; Some 0x0408; Some 0xE0CD; Some 0x4142]; [Some 0x1234; Some 0x0408; Some 0xE0CD; Some 0x4142];
     [Some 0x1234; Some 0x0409; Some 0xE0CD; None]; [None; None; None; None]; [Some 0x1234; Some 0x2400; Some 0x4142; Some 0x4344]; [Some 0x1234; Some 0x8401; Some 0x1234; Some 0x5678]] /\
  Forall recorded gs /\
  (forall before e g after, gs = before ++ e :: g :: after -> missed e -> ~ missed g -> received g BLOCK1 <> None) /\
  (forall before g after, gs = before ++ g :: after -> ~ unchecked (map (fun x => (x, 0)) before) (g, 0)) /\
  o_output_type Options_default = OutJSON /\ o_timestamp Options_default = false /\ o_bler Options_default = false.
Proof.
  cbv zeta. match goal with |- context [groups_after ?f ?a ?b] => let x := eval vm_compute in (groups_after f a b) in change (groups_after f a b) with x end.
  split; [reflexivity|]. split; [repeat (apply Forall_cons; [split; cbn; intros; congruence|]); apply Forall_nil|]. split; [|split; [|repeat split; reflexivity]].
  - intros before e g after E M. do 7 (destruct before as [|? before]; cbn [app] in E; [injection E; intros; subst; first [specialize (M BLOCK3); discriminate M|intros; discriminate]|injection E; intros; subst; clear E; match goal with X : _ = before ++ _ |- _ => rename X into E end]).
    destruct before; discriminate.
  - intros before g after E (_ & _ & Q).
    assert (Y : forall t a, In (t, a) (flat_map announcement (map (fun x => (x, 0)) before)) -> False).
    { intros t a I. apply in_flat_map in I. destruct I as (y & I & J). apply in_map_iff in I. destruct I as (z & <- & I). assert (K : In z (before ++ g :: after)) by (apply in_or_app; left; exact I). rewrite <- E in K.
      cbn [In] in K. repeat (destruct K as [<-|K]; [vm_compute in J; exact J|]). exact K. }
    destruct Q as [Q|[Q|Q]]; [|apply Y in Q; exact Q|apply Y in Q; exact Q].
    assert (K : In g (before ++ g :: after)) by apply in_elt. rewrite <- E in K. cbn [In] in K. repeat (destruct K as [<-|K]; [discriminate Q|]). exact K.
Qed.

(* What the theorem requires of a recording is needed: for each requirement, a reception that meets the others and whose recording is decoded to other lines. *)
Definition differs (input : bytes) : Prop := exists rec items items',
  processASCIIBitsInput plain_host (with_output Options_default OutHex) (fun _ => 0%Z) 0%Z input = Ok (EXIT_SUCCESS, rec) /\
  processASCIIBitsInput plain_host Options_default (fun _ => 0%Z) 0%Z input = Ok (EXIT_SUCCESS, items) /\
  processHexInput plain_host Options_default (fun _ => 0%Z) (text_file (all_lines rec)) = Ok (EXIT_SUCCESS, items') /\ items <> items'.

(* A version B group whose block 3 was lost: from the bits its type is not known, from the recording it is. *)
Theorem C75_version_B_refuted : exists input, differs input /\
  map (fun g => map (received g) [BLOCK1; BLOCK2; BLOCK3; BLOCK4]) (groups_after true [] (ascii_bits input)) =
    [[None; None; Some 0xE0CD; Some 0x4142]; [Some 0x1234; Some 0x0408; Some 0xE0CD; Some 0x4142]; [Some 0x1234; Some 0x0408; Some 0xE0CD; Some 0x4142];
     [Some 0x1234; Some 0x0C19; None; Some 0x4344]; [Some 0x1234; Some 0x2400; Some 0x4142; Some 0x4344]; [Some 0x1234; Some 0x8401; Some 0x1234; Some 0x5678]].
Proof.
  exists (on_tape three (mkTx 0x1234 0x0C19 0x1234 0x4344) (0, 0, lost, 0) later). split; [|vm_compute; reflexivity].
  eexists. eexists. eexists. split; [vm_compute; reflexivity|]. split; [vm_compute; reflexivity|]. split; [vm_compute; reflexivity|]. discriminate.
Qed.
Print Assumptions C75_version_B_refuted.

(* A version B group whose block 1 was lost: from the bits the programme is known by block 3, and the group shown; from the recording it is not. *)
Theorem C75_identification_in_block_3_refuted : exists input, differs input /\
  map (fun g => map (received g) [BLOCK1; BLOCK2; BLOCK3; BLOCK4]) (groups_after true [] (ascii_bits input)) =
    [[None; None; Some 0xE0CD; Some 0x4142]; [Some 0x1234; Some 0x0408; Some 0xE0CD; Some 0x4142]; [Some 0x1234; Some 0x0408; Some 0xE0CD; Some 0x4142];
     [None; Some 0x0C19; Some 0x1234; Some 0x4344]; [Some 0x1234; Some 0x2400; Some 0x4142; Some 0x4344]; [Some 0x1234; Some 0x8401; Some 0x1234; Some 0x5678]].
Proof.
  exists (on_tape three (mkTx 0x1234 0x0C19 0x1234 0x4344) (lost, 0, 0, 0) later). split; [|vm_compute; reflexivity].
  eexists. eexists. eexists. split; [vm_compute; reflexivity|]. split; [vm_compute; reflexivity|]. split; [vm_compute; reflexivity|]. discriminate.
Qed.
Print Assumptions C75_identification_in_block_3_refuted.

(* Nothing received of a group, and block 1 lost of the next: from the bits the next one is not shown; the recording has no trace of the first, and the next one is shown. *)
Theorem C75_after_a_missed_group_refuted : exists input, differs input /\
  map (fun g => map (received g) [BLOCK1; BLOCK2; BLOCK3; BLOCK4]) (groups_after true [] (ascii_bits input)) =
    [[None; None; Some 0xE0CD; Some 0x4142]; [Some 0x1234; Some 0x0408; Some 0xE0CD; Some 0x4142]; [Some 0x1234; Some 0x0408; Some 0xE0CD; Some 0x4142];
     [Some 0x1234; Some 0x0409; Some 0xE0CD; Some 0x4344]; [None; None; None; None]; [None; Some 0x040A; Some 0xE0CD; Some 0x4546]; [Some 0x1234; Some 0x2400; Some 0x4142; Some 0x4344]; [Some 0x1234; Some 0x8401; Some 0x1234; Some 0x5678]].
Proof.
  exists (bit_text (flat_map tx_bits three ++ tx_bits (mkTx 0x1234 0x0409 0xE0CD 0x4344) ++ flat_map block_bits (rx_words (mkTx 0x1234 0x040A 0xE0CD 0x4546) (lost, lost, lost, lost)) ++
    flat_map block_bits (rx_words (mkTx 0x1234 0x040A 0xE0CD 0x4546) (lost, 0, 0, 0)) ++ flat_map tx_bits later)). split; [|vm_compute; reflexivity].
  eexists. eexists. eexists. split; [vm_compute; reflexivity|]. split; [vm_compute; reflexivity|]. split; [vm_compute; reflexivity|]. discriminate.
Qed.
Print Assumptions C75_after_a_missed_group_refuted.
