(* C37, C40: files sent over RDS (RFT). *)
From Verif.Model Require Import Base Util Rft.
From Verif.Spec Require Import Base64 Crc.
From Verif.Proofs Require Import FileP.

Local Open Scope string_scope.
Local Open Scope N_scope.

(* --- C37 --- *)
Theorem C37_base64_round_trip : forall data, Forall (fun b => b < 256) data -> decode64 (asBase64 data) = Some data.
Proof. exact decode_base64. Qed.
Print Assumptions C37_base64_round_trip.

Example C37_case : asBase64 [0xFF; 0x00; 0x10; 0x7F] = bs "/wAQfw==" /\ decode64 (bs "/wAQfw==") = Some [0xFF; 0x00; 0x10; 0x7F].
Proof. split; vm_compute; reflexivity. Qed.

(* --- C40 --- *)
Theorem C40_checksum : forall data, data <> [] -> Forall (fun b => b < 256) data -> crc16_ccitt data = crc16 data.
Proof. exact crc_correct. Qed.
Print Assumptions C40_checksum.

(* The published check value of this CRC for "123456789" *)
Example C40_case : crc16_ccitt (bs "123456789") = 0xD64E.
Proof. vm_compute. reflexivity. Qed.
