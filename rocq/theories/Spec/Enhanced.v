(* Enhanced RadioText: an open data application (number 6552) that sends a text of up to 128 bytes.
   Independent of the model. *)
From Verif.Model Require Import Base Group.
From Verif.Spec Require Import Unicode Session Identity History Texts Apps Traffic.

(* Groups of type t carry four bytes of the text, two in block 3 and two in block 4.  Each of the two
   blocks counts if it was received. *)
Definition ert_segment (t : GroupType) (x : Group * N) : writes :=
  let '(g, w) := x in
  if (w =? 0) && g_has_type g && GroupType_eqb (g_type g) t then
    let n := 4 * (blk_data (g_b2 g) mod 32) in
    (if blk_is_received (g_b3 g) then [(n, hi (blk_data (g_b3 g))); (n + 1, lo (blk_data (g_b3 g)))] else []) ++
    (if blk_is_received (g_b4 g) then [(n + 2, hi (blk_data (g_b4 g))); (n + 3, lo (blk_data (g_b4 g)))] else [])
  else [].

(* Enhanced RadioText is announced in groups of type t and no others, always with the same message, and
   this type is announced for nothing else *)
Definition ert_assigned (t : GroupType) (message : N) (h : list (Group * N)) : Prop :=
  forall t' a m, In (Announced t' a m) (flat_map app_items h) -> a = 0x6552 \/ t' = t -> t' = t /\ a = 0x6552 /\ m = message.
(* In addition, there is no RadioText Plus for Enhanced RadioText (number 4BD8) *)
Definition ert_only (t : GroupType) (message : N) (h : list (Group * N)) : Prop :=
  forall t' a m, In (Announced t' a m) (flat_map app_items h) ->
    (a = 0x6552 \/ t' = t -> t' = t /\ a = 0x6552 /\ m = message) /\ a <> 0x4BD8.
(* Bit 0 of the message tells that the text is UTF-8 *)
Definition in_utf8 (message : N) : Prop := N.testbit message 0 = true.

(* No group of type t arrives without block 3 *)
Definition ert_whole (t : GroupType) (h : list (Group * N)) : Prop :=
  forall g, In (g, 0) h -> g_has_type g = true -> g_type g = t -> blk_is_received (g_b3 g) = true.
(* Only the first 64 of the 128 bytes are used *)
Definition ert_short (t : GroupType) (h : list (Group * N)) : Prop :=
  Forall (fun pb => fst pb < 64) (flat_map (ert_segment t) h).

(* RadioText Plus for Enhanced RadioText is announced in groups of type t and no others, and these for
   nothing else *)
Definition ert_plus_in (t : GroupType) (h : list (Group * N)) : Prop :=
  forall t' a m, In (Announced t' a m) (flat_map app_items h) -> a = 0x4BD8 \/ t' = t -> t' = t /\ a = 0x4BD8.
(* The bytes l are a UTF-8 text followed by an end mark, or fill all 64 places; these are its characters,
   with a blank for the end mark *)
Definition ert_text (l : list N) (body : list N) : Prop :=
  exists cs, Forall scalar cs /\ ~ In 0 cs /\ ~ In end_of_text cs /\
    ((exists r, l = utf8_text cs ++ end_of_text :: r) /\ body = cs ++ [32] \/ l = utf8_text cs /\ length l = 64%nat /\ body = cs).
