(* Blocks that were not received. *)
From Verif.Model Require Import Base Group.
From Verif.Spec Require Import Texts History.

(* Two versions of a block: equal if it was received, and otherwise with any contents *)
Definition same_block (a b : Block) : Prop :=
  blk_is_received a = blk_is_received b /\ (blk_is_received a = true -> a = b).
(* Two versions of a group that differ at most in the contents of blocks that were not received *)
Definition same_received (g g' : Group) : Prop :=
  same_block (g_b1 g) (g_b1 g') /\ same_block (g_b2 g) (g_b2 g') /\ same_block (g_b3 g) (g_b3 g') /\ same_block (g_b4 g) (g_b4 g') /\
  g' = mkGroup (g_type g) (g_b1 g') (g_b2 g') (g_b3 g') (g_b4 g') (g_time_received g) (g_bler g) (g_data_stream g) (g_has_type g)
         (g_has_c_prime g) (g_has_bler g) (g_has_time g) (g_no_offsets g).
Definition same_reception (x x' : Z * Group * N) : Prop :=
  fst (fst x) = fst (fst x') /\ snd x = snd x' /\ same_received (snd (fst x)) (snd (fst x')).

(* Groups whose decoders use blocks 3 and 4 without checking: transparent data, and what is sent by the
   applications DAB cross-reference and enhanced RadioText *)
Definition unchecked (h : list (Group * N)) (x : Group * N) : Prop :=
  snd x = 0 /\ g_has_type (fst x) = true /\
  (gt_number (g_type (fst x)) = 5 \/ In (g_type (fst x), 0x0093) (flat_map announcement h) \/ In (g_type (fst x), 0x6552) (flat_map announcement h)).
