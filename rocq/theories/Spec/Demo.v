(* A transmitter, an ideal demodulator and small worlds, for examples about the whole program. *)
From Verif.Model Require Import Base Util Float Group Options Json Tmc Station Channel Input Dsp Main.
From Verif.Spec Require Import RdsCode RdsStream Session Inputs Program Host.

(* Biphase symbols of coded bits *)
Fixpoint biphase (bits : list bool) : list (spec_float * spec_float) :=
  match bits with
  | [] => []
  | b :: r => ((if b then f32_of_Z (-1) else f32_of_Z 1), S754_zero false) ::
              ((if b then f32_of_Z 1 else f32_of_Z (-1)), S754_zero false) :: biphase r
  end.
Definition on_air (ts : list TxGroup) : list (spec_float * spec_float) :=
  tl (biphase (differential false (flat_map tx_bits ts))).

(* A demodulator that finds these symbols whatever the samples *)
Definition ideal (syms : list (spec_float * spec_float)) : Liquid (list (spec_float * spec_float)) :=
  mkLiquid (fun _ => syms) (fun d x => (d, [x]))
    (fun d _ _ turn => if turn : bool then match d with s :: r => (r, Some s) | [] => ([], None) end else (d, None))
    (fun d => d).

Definition demo_groups : list TxGroup := repeat (mkTx 0x1234 0x0408 0xE0CD 0x4142) 4.

(* Audio with [n] channels on standard input *)
Definition audio_world (n : N) (clock : Z) (samples : list spec_float) : World (list (spec_float * spec_float)) :=
  mkWorld plain_host (mkNumEnv (fun _ => (n, false)) (fun _ => (f32_of_Z 171000, false)))
    (mkSndEnv true (fun _ => Refused false) 0) (ideal (on_air demo_groups)) (fun _ => clock) 0%Z [] samples.
Definition audio_options : list Opt := [OptChar "r" (bs "171000"); OptChar "c" (bs "2"); OptChar "t" (bs "%s")].

(* Text on standard input *)
Definition text_world (input : bytes) : World unit :=
  mkWorld plain_host (mkNumEnv (fun _ => (1, false)) (fun _ => (f32_of_Z 171000, false)))
    (mkSndEnv false (fun _ => Refused true) 0) (mkLiquid (fun _ => tt) (fun d x => (d, [x])) (fun d _ _ _ => (d, None)) (fun d => d))
    (fun _ => 0%Z) 0%Z input [].
