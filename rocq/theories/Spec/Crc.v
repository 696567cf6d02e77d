(* CRC-16/CCITT: division by x^16 + x^12 + x^5 + 1, one message bit at a time, most significant bit
   of each byte first; the register starts with all ones and its complement is the checksum. *)
From Verif.Model Require Import Base.

Definition crc_bit (register : N) (bit : bool) : N :=
  let shifted := (register * 2) mod 2 ^ 16 in
  if xorb (N.testbit register 15) bit then N.lxor shifted 0x1021 else shifted.

Definition bits_of_byte (b : N) : list bool := map (N.testbit b) [7; 6; 5; 4; 3; 2; 1; 0].

Definition crc16 (data : bytes) : N :=
  N.lxor (fold_left crc_bit (flat_map bits_of_byte data) 0xFFFF) 0xFFFF.
