(* Errors in PI codes. *)
From Verif.Model Require Import Base Group.
From Verif.Spec Require Import Identity.

(* The same group with code q in block 1 (raw: the 26 bits of the block) *)
Definition coded (raw q : N) (g : Group) : Group :=
  mkGroup (g_type g) (mkBlock raw q (blk_is_received (g_b1 g)) (blk_had_errors (g_b1 g)) (blk_offset (g_b1 g))) (g_b2 g) (g_b3 g) (g_b4 g) (g_time_received g) (g_bler g) (g_data_stream g)
    (g_has_type g) (g_has_c_prime g) (g_has_bler g) (g_has_time g) (g_no_offsets g).
(* x' is x, or x with another code in block 1 (of a group of the main data stream) *)
Definition misread (x x' : Z * Group * N) : Prop :=
  x' = x \/ exists raw q, main x = true /\ blk_is_received (g_b1 (snd (fst x))) = true /\ x' = (fst (fst x), coded raw q (snd (fst x)), snd x).

(* Of any two successive codes one is p *)
Definition isolated (p : N) (codes : list N) : Prop := forall before x y after, codes = before ++ x :: y :: after -> x = p \/ y = p.
