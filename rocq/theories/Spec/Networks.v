(* What is told about other networks (groups of type 14A): the network by its PI code in block 4,
   which of the items is meant by the low four bits of block 2, and the item in block 3. *)
From Verif.Model Require Import Base Group.
From Verif.Spec Require Import Frequencies Texts.

Definition network_item (x : Group * N) : list (N * N * N) :=
  let '(g, w) := x in
  if (w =? 0) && g_has_type g && (gt_number (g_type g) =? 14) && Version_eqb (gt_version (g_type g)) VA &&
     blk_is_received (g_b3 g) && blk_is_received (g_b4 g)
  then [(blk_data (g_b4 g), blk_data (g_b2 g) mod 16, blk_data (g_b3 g))] else [].

(* Items 0..3 are the four parts of the name of network [net], two characters each *)
Definition name_of (net : N) (x : Group * N) : writes :=
  flat_map (fun it => let '(n, k, d) := it in
    if (n =? net) && (k <? 4) then [(2 * k, hi d); (2 * k + 1, lo d)] else []) (network_item x).

(* Item 4 is two codes of the list of frequencies of network [net] *)
Definition frequencies_of (net : N) (x : Group * N) : list af_event :=
  flat_map (fun it => let '(n, k, d) := it in
    if (n =? net) && (k =? 4) then [AfCodes (hi d) (lo d)] else []) (network_item x).
