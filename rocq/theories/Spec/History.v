(* What a channel has decoded. *)
From Verif.Model Require Import Base Group Station Channel.
From Verif.Spec Require Import Identity.

(* The groups for which a line was printed, with their data streams *)
Definition decoded_in (gs : list (Z * Group * N)) (out : list (option bytes)) : list (Group * N) :=
  flat_map (fun x => match x with (_, g, w, Some _) => [(g, w)] | _ => [] end) (combine gs out).

(* A group received while following station p: it carries that PI code or none *)
Definition stays (p : N) (x : Z * Group * N) : Prop := carried_pi x = None \/ carried_pi x = Some p.

(* The groups received, with their data streams *)
Definition groups_of (gs : list (Z * Group * N)) : list (Group * N) := map (fun x => (snd (fst x), snd x)) gs.
