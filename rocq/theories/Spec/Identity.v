(* Which station is being received, from the PI codes received. *)
From Verif.Model Require Import Base Group Station Channel.

(* The PI code carried by a group received on a data stream: block 1, or block 3 if that was
   received with offset word C'.  Groups of the additional data streams carry none. *)
Definition carried_pi (x : Z * Group * N) : option N :=
  let '(_, g, stream) := x in
  if stream =? 0 then
    match gt_version (g_type g) with
    | VC => None
    | _ => if blk_is_received (g_b1 g) then Some (blk_data (g_b1 g))
           else if blk_is_received (g_b3 g) && Offset_eqb (blk_offset (g_b3 g)) OffCprime
           then Some (blk_data (g_b3 g)) else None
    end
  else None.

(* The PI codes received, in order *)
Definition pis (gs : list (Z * Group * N)) : list N :=
  flat_map (fun x => match carried_pi x with Some p => [p] | None => [] end) gs.

(* The last three PI codes received are all p *)
Definition three (p : N) (l : list N) : Prop := exists earlier, l = earlier ++ [p; p; p].

(* The station a channel is showing *)
Definition station_of (c : Channel) : option N :=
  if st_has_pi (ch_station c) then Some (st_pi (ch_station c)) else None.

(* p is the PI code most recently received three times in succession.  (Three PI codes 0000 in
   succession may be ignored.) *)
Definition latest (p : N) (gs : list (Z * Group * N)) : Prop :=
  exists a b, gs = a ++ b /\ three p (pis a) /\
    forall b1 b2 q, b = b1 ++ b2 -> three q (pis (a ++ b1)) -> q = p \/ q = 0.

(* A group of the main data stream (every group of that stream can carry a PI code) *)
Definition main (x : Z * Group * N) : bool :=
  let '(_, g, stream) := x in (stream =? 0) && negb (Version_eqb (gt_version (g_type g)) VC).

(* No block of the group was received *)
Definition nothing_received (g : Group) : Prop :=
  blk_is_received (g_b1 g) = false /\ blk_is_received (g_b2 g) = false /\
  blk_is_received (g_b3 g) = false /\ blk_is_received (g_b4 g) = false.

(* Groups as an input delivers them: 16-bit blocks, no error rate yet *)
Definition received_group (x : Z * Group * N) : Prop :=
  let '(_, g, _) := x in
  g_has_bler g = false /\ blk_data (g_b1 g) < 2 ^ 16 /\ blk_data (g_b2 g) < 2 ^ 16 /\
  blk_data (g_b3 g) < 2 ^ 16 /\ blk_data (g_b4 g) < 2 ^ 16.
