(* The program as its user sees it. *)
From Verif.Model Require Import Base Float Group Options Json Tmc Station Channel Input Dsp Main.
From Verif.Spec Require Import Session.

(* The lines printed for one channel *)
Definition of_channel (ch : N) (out : list output_item) : list bytes :=
  flat_map (fun s => match s with Line c t => if c =? ch then [t] else [] | _ => [] end) out.

(* All lines *)
Definition all_lines (out : list output_item) : list bytes :=
  flat_map (fun s => match s with Line _ t => [t] | _ => [] end) out.

(* An error was reported to the user *)
Definition complaint (s : output_item) : bool := match s with Usage | Message => true | _ => false end.

(* Audio libraries: files have 1 to 1024 channels (the limit of libsndfile), and the resampler makes
   at most two samples from one (the limit documented by liquid-dsp for ratios up to 2). *)
Definition audio_ok {D : Type} (se : SndEnv) (lq : Liquid D) : Prop :=
  (forall name n rate, snd_file se name = Opened n rate -> 1 <= n <= 1024) /\
  (forall d x, (length (snd (lq_resample lq d x)) <= 2)%nat).

(* All samples that the reader hands out for one channel until the end of the input *)
Fixpoint read_audio {A : Type} (fuel : nat) (r : MPXReader A) (ch : N) : res (list A) :=
  if mr_is_eof r then Ok []
  else match fuel with
  | O => Ok []
  | S f => let r := fillBuffer 0 r in
           '(chunk, _) <- readChunk r ch ;;
           rest <- read_audio f r ch ;;
           Ok (chunk ++ rest)
  end.

(* What a channel of the program printed is what a [Channel] of the library prints for some calls *)
Definition printed_by_channel (env : Env) (o : Options) (ch : N) (lines : list bytes) : Prop :=
  exists calls c, Forall possible calls /\ session env o (Channel_new o ch) calls = Ok (c, lines).

(* The audio was opened, and the resampler refuses its sample rate *)
Definition rate_refused {D : Type} (w : World D) (ops : list Opt) (extra : bool) (m : string) : Prop :=
  exists o n rate, getOptions (w_numbers w) ops extra = Ok o /\ mpx_init (w_snd w) o = Opened n rate /\
    SubcarrierSet_create (f32_of_Z rate) = Throw m.
