(* Input that ends earlier. *)
From Verif.Model Require Import Base Float Group Options Json Tmc Station Channel Input Dsp Main.

(* The same world, with other text on standard input, or other audio *)
Definition reading {D : Type} (w : World D) (input : bytes) : World D :=
  mkWorld (w_env w) (w_numbers w) (w_snd w) (w_liquid w) (w_clock w) (w_clock_at_end w) input (w_audio w).
Definition hearing {D : Type} (w : World D) (samples : list spec_float) (end_time : Z) : World D :=
  mkWorld (w_env w) (w_numbers w) (w_snd w) (w_liquid w) (w_clock w) end_time (w_stdin w) samples.

(* No line of the text is unfinished *)
Definition whole_lines (s : bytes) : Prop := s = [] \/ exists s', s = s' ++ [10].
