(* C118: every group heard gives one line. *)
From Verif.Model Require Import Base Util Float Group BlockSync Options Json Tmc Tables Station Input Channel Dsp Main.
From Verif.Spec Require Import RdsCode RdsStream Reception Inputs Unicode JsonText Session Identity Quality Fields Host Program Cases Recording OnAir Recovery Apps Heard.
From Verif.Proofs Require Import Tac BlockSyncT BlockSyncS LossP HostP HeardP HeardAllP.
From Verif.Props Require Import P_Channel P_Recording P_OnAir P_Recovery P_Again P_Heard.

Local Open Scope string_scope.
Local Open Scope N_scope.
Local Open Scope list_scope.

(* --- C118 --- *)
(* The lines for the groups heard (Spec/Heard.v) follow each other in the order sent, one for each group. *)
Theorem C118_one_line_each : forall env o clock t input p ts, host_ok env -> host_text env -> o_output_type o = OutJSON -> p <> 0 ->
  heard (o_use_fec o) input p ts ->
  exists items lines more, processASCIIBitsInput env o clock t input = Ok (EXIT_SUCCESS, items ++ map (Line 0) lines ++ more) /\
    Forall2 (tells (o_rbds o) p) ts lines.
Proof. exact heard_all. Qed.
Print Assumptions C118_one_line_each.

(* The same for hex output *)
Theorem C118_in_hex : forall env o clock t input p ts, host_ok env -> o_output_type o = OutHex -> o_timestamp o = false ->
  heard (o_use_fec o) input p ts ->
  exists items lines more, processASCIIBitsInput env o clock t input = Ok (EXIT_SUCCESS, items ++ map (Line 0) lines ++ more) /\
    Forall2 hex_line ts lines.
Proof. exact heard_in_hex. Qed.
Print Assumptions C118_in_hex.

(* The groups of the case of C117_type_name, with a wrong bit in the last one, and after a bit was received twice *)
Example C118_case : let ts := type_parts ++ [type_last] in
  heard true (from_air type_parts type_last) 0x1234 ts /\ heard true (from_chaos ts) 0x1234 ts /\
  (exists items more l1 l2 l3 l4, processASCIIBitsInput plain_host Options_default (fun _ => 0%Z) 0%Z (from_air type_parts type_last) =
     Ok (EXIT_SUCCESS, items ++ map (Line 0) [l1; l2; l3; l4] ++ more) /\ Forall2 (tells false 0x1234) ts [l1; l2; l3; l4]).
Proof.
  intros ts. destruct C117_type_name_case as (A & B & _). split; [exact A|]. split; [exact B|].
  destruct (C118_one_line_each plain_host Options_default (fun _ => 0%Z) 0%Z (from_air type_parts type_last) 0x1234 ts) as (items & lines & more & E & F); [apply plain_host_ok|apply plain_host_utf8|reflexivity|discriminate|exact A|].
  assert (L : length ts = length lines) by (clear - F; revert F; generalize ts lines; intros a b F; induction F; cbn [length]; congruence). destruct lines as [|l1 [|l2 [|l3 [|l4 [|l5 r]]]]]; try discriminate L.
  exists items, more, l1, l2, l3, l4. split; [exact E|exact F].
Qed.

(* A group of type 15A whose bytes are not UTF-8 is answered with an error message instead, so that the exception for
   types that applications may use is needed. *)
Definition bad_long : TxGroup := mkTx 0x1234 0xF400 0xC3C3 0x0D20.
Definition error_line : bytes := bs "{""debug"":""[json.exception.type_error.316]""}".
Theorem C118_error_message_refuted : exists input ts items lines, heard true input 0x1234 ts /\ ts <> [] /\ length lines = length ts /\
  processASCIIBitsInput plain_host Options_default (fun _ => 0%Z) 0%Z input = Ok (EXIT_SUCCESS, items ++ map (Line 0) lines) /\
  Forall only_error lines.
Proof.
  exists (from_air [bad_long] bad_long), [bad_long; bad_long]. eexists [_], [error_line; error_line]. split; [by_air [bad_long] bad_long|]. split; [discriminate|]. split; [reflexivity|].
  split; [vm_compute; reflexivity|]. repeat constructor; eexists; vm_compute; reflexivity.
Qed.
Print Assumptions C118_error_message_refuted.
