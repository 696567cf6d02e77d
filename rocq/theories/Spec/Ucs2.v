(* Texts in UCS-2, two bytes for each character, as Enhanced RadioText can be sent.  Independent of the model. *)
From Verif.Model Require Import Base Station.
From Verif.Spec Require Import Unicode Texts Enhanced.

(* Bit 0 of the message tells that the text is UCS-2 *)
Definition in_ucs2 (message : N) : Prop := N.testbit message 0 = false.

(* A character that UCS-2 can express *)
Definition ucs2_char (c : N) : Prop := scalar c /\ c < 0x10000.
(* The bytes of a text; the standard sends the more significant byte first *)
Definition ucs2_text (cs : list N) : list N := flat_map (fun c => [c / 256; c mod 256]) cs.
Definition ucs2_text_low_first (cs : list N) : list N := flat_map (fun c => [c mod 256; c / 256]) cs.

(* The host's converter reads UCS-2, with the more or the less significant byte first *)
Definition reads_ucs2 (env : Env) : Prop := forall cs, Forall ucs2_char cs -> env_ucs2 env (ucs2_text cs) = Some (utf8_text cs).
Definition reads_ucs2_low_first (env : Env) : Prop := forall cs, Forall ucs2_char cs -> env_ucs2 env (ucs2_text_low_first cs) = Some (utf8_text cs).

(* The bytes of a received text: up to and including the first end mark *)
Fixpoint up_to_end (l : list N) : list N :=
  match l with
  | [] => []
  | b :: r => if b =? end_of_text then [b] else b :: up_to_end r
  end.

(* Neither of the two bytes is zero or looks like the end mark *)
Definition whole_char (c : N) : Prop := ~ In (c / 256) [0; end_of_text] /\ ~ In (c mod 256) [0; end_of_text].
(* A character both of whose bytes have been made visible *)
Definition misread (c : N) : N := 256 * visible (c / 256) + visible (c mod 256).
