(* Recovery of the receiver from a disturbance: what may still look like a block where there is none. *)
From Verif.Model Require Import Base Group.
From Verif.Spec Require Import RdsCode RdsStream Reception.

(* A transmission begins after the first n0 bits.  Its blocks end 26, 52, 78, ... bits later. *)
Definition between_blocks (n0 t : nat) : Prop := ((t - n0) mod 26 <> 0)%nat.

(* Positions after n0 at which the last 26 bits happen to form a block although no block ends there. *)
Definition chance_blocks (bits : list bool) (n0 : nat) : list nat :=
  filter (fun t => match seen_at bits t with OffInvalid => false | _ => negb ((t - n0) mod 26 =? 0)%nat end)
         (seq (S n0) (length bits - n0)).

(* Three blocks in rhythm of which the last is there by chance. *)
Definition chance_rhythm (bits : list bool) (n0 : nat) : Prop :=
  exists t1 t2 t, (t1 < t2)%nat /\ (t2 < t)%nat /\ (n0 < t)%nat /\ (t <= length bits)%nat /\ between_blocks n0 t /\
    in_rhythm bits t1 t2 /\ in_rhythm bits t2 t.
