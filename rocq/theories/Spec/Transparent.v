(* Transparent data channel: groups 5A carry, in blocks 3 and 4, four of 128 bytes; the low five bits of
   block 2 say which.  (The program takes blocks 3 and 4 as they are, also if they were not received.) *)
From Verif.Model Require Import Base Group.
From Verif.Spec Require Import Texts.

Definition data_segment (x : Group * N) : writes :=
  let '(g, w) := x in
  if (w =? 0) && g_has_type g && (gt_number (g_type g) =? 5) && Version_eqb (gt_version (g_type g)) VA then
    place (4 * (blk_data (g_b2 g) mod 32))
      [hi (blk_data (g_b3 g)); lo (blk_data (g_b3 g)); hi (blk_data (g_b4 g)); lo (blk_data (g_b4 g))]
  else [].
