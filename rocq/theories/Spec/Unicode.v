(* Unicode scalar values and their UTF-8 encoding (RFC 3629): independent of the model. *)
From Verif.Model Require Import Base.

Definition scalar (c : N) : Prop := c < 0xD800 \/ (0xE000 <= c /\ c <= 0x10FFFF).

Definition utf8_encode (c : N) : bytes :=
  if c <? 0x80 then [c]
  else if c <? 0x800 then [0xC0 + c / 0x40; 0x80 + c mod 0x40]
  else if c <? 0x10000 then [0xE0 + c / 0x1000; 0x80 + (c / 0x40) mod 0x40; 0x80 + c mod 0x40]
  else [0xF0 + c / 0x40000; 0x80 + (c / 0x1000) mod 0x40; 0x80 + (c / 0x40) mod 0x40; 0x80 + c mod 0x40].

(* The bytes of a text *)
Definition utf8_text (cs : list N) : bytes := flat_map utf8_encode cs.

(* A byte string that is UTF-8 *)
Definition is_utf8 (s : bytes) : Prop := exists cs, Forall scalar cs /\ s = utf8_text cs.
