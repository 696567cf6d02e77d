(* How a time is written, according to a format of strftime with the addition %f for hundredths of a second. *)
From Verif.Model Require Import Base Group Options Json Station Channel.
From Verif.Spec Require Import Session Quality.

(* A format in which % is always followed by the letter of a conversion of strftime (f is none) *)
Definition conversions : bytes := bs "aAbBcCdDeFgGhHIjmMnprRsStTuUVwWxXyYzZ%".
Fixpoint whole (f : bytes) : bool :=
  match f with
  | [] => true
  | 37 :: r => match r with c :: r' => existsb (N.eqb c) conversions && whole r' | [] => false end
  | _ :: r => whole r
  end.

(* strftime with a buffer of 64 bytes and the local time zone: expand f t is the text for second t after the epoch; it
   fails for an empty text and for a text of more than 63 bytes *)
Definition strftime_is (env : Env) (expand : bytes -> Z -> bytes) : Prop :=
  (forall a b t, whole a = true -> whole b = true -> expand (a ++ b) t = expand a t ++ expand b t) /\
  (forall c t, c <> 37 -> expand [c] t = [c]) /\
  (forall f t, whole f = true -> env_strftime env f t =
     if ((1 <=? length (expand f t)) && (length (expand f t) <=? 63))%nat then Some (expand f t) else None).

(* The text "%f" does not occur *)
Definition no_f (f : bytes) : Prop := forall a b, f <> a ++ bs "%f" ++ b.

(* Two decimal digits *)
Definition two (n : Z) : bytes := [48 + Z.to_N (n / 10); 48 + Z.to_N (n mod 10)].

(* The text s of time t (in nanoseconds after the epoch) in this format *)
Definition time_text (expand : bytes -> Z -> bytes) (format : bytes) (t : Z) (s : bytes) : Prop :=
  let second := (t / 1000000000)%Z in
  let hundredth := ((t mod 1000000000) / 10000000)%Z in
  (whole format = true /\ no_f format /\ s = expand format second) \/
  (exists a b, format = a ++ bs "%f" ++ b /\ whole a = true /\ whole b = true /\ no_f a /\
     s = expand a second ++ two hundredth ++ expand b second).

(* What is shown for this text *)
Definition shown_text (s : bytes) : bytes :=
  if ((1 <=? length s) && (length s <=? 63))%nat then s else bs "(format error)".

(* The same options without times *)
Definition without_times (o : Options) : Options :=
  mkOptions (o_rbds o) (o_feed_thru o) (o_show_partial o) (o_early_exit o) (o_init_error o)
    (o_print_usage o) (o_print_version o) false (o_bler o) (o_show_raw o)
    (o_is_rate_defined o) (o_is_num_channels_defined o) (o_use_fec o) (o_streams o) (o_samplerate o)
    (o_num_channels o) (o_input_type o) (o_output_type o) (o_loctable_dirs o) (o_sndfilename o)
    (o_time_format o).
