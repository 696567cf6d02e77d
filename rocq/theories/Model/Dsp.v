(* src/dsp/subcarrier.cc:48-89: the biphase and differential decoders.  The rest of the signal
   chain (filters, AGC, PLL, symbol synchroniser, resampler of liquid-dsp) is not modelled. *)
From Verif.Model Require Import Base Float.

(* src/dsp/subcarrier.hh:31-41.  A symbol is a pair (real, imaginary) of binary32 values. *)
Record BiphaseDecoder := mkBiphase {
  bp_prev : spec_float * spec_float;
  bp_clock_history : list spec_float;
  bp_clock : N;
  bp_clock_polarity : N
}.
Definition BiphaseDecoder_init : BiphaseDecoder :=
  mkBiphase (S754_zero false, S754_zero false) (repeat (S754_zero false) 128) 0 0.

Definition f32_half : spec_float := S754_finite false 8388608 (-24).

(* src/dsp/subcarrier.cc:66-73: sums over even and odd indices *)
Fixpoint phase_sums (h : list spec_float) (i : N) (a b : spec_float) : spec_float * spec_float :=
  match h with
  | [] => (a, b)
  | x :: r => if i mod 2 =? 0 then phase_sums r (i + 1) (f32_add a x) b
              else phase_sums r (i + 1) a (f32_add b x)
  end.

(* src/dsp/subcarrier.cc:50-83; result: new state, data, valid.
   clock_history_[clock_] with clock_ out of range would be undefined behaviour. *)
Definition biphase_push (d : BiphaseDecoder) (symbol : spec_float * spec_float)
    : res (BiphaseDecoder * bool * bool) :=
  let real := f32_mul (f32_sub (fst symbol) (fst (bp_prev d))) f32_half in
  let data := SFleb (S754_zero false) real in
  let valid := bp_clock d mod 2 =? bp_clock_polarity d in
  history <- arr_set (bp_clock_history d) (bp_clock d) (SFabs real) ;;
  let clock := u32 (bp_clock d + 1) in
  if clock =? N.of_nat (length history) then
    let '(a, b) := phase_sums history 0 (S754_zero false) (S754_zero false) in
    let polarity := if SFltb b a then 0 else if SFltb a b then 1 else bp_clock_polarity d in
    Ok (mkBiphase symbol (map (fun _ => S754_zero false) history) 0 polarity, data, valid)
  else Ok (mkBiphase symbol history clock (bp_clock_polarity d), data, valid).

(* src/dsp/subcarrier.cc:85-89; prev_ starts at 0 *)
Definition delta_decode (prev d : N) : N * N := (d, if d =? prev then 0 else 1).

Fixpoint delta_run (prev : N) (ds : list N) : list N :=
  match ds with
  | [] => []
  | d :: r => let '(prev, b) := delta_decode prev d in b :: delta_run prev r
  end.

(* src/dsp/subcarrier.cc:193-203: the bits produced from a sequence of symbols by a fresh decoder
   chain *)
Fixpoint symbol_bits (d : BiphaseDecoder) (prev : N) (syms : list (spec_float * spec_float))
    : res (list N) :=
  match syms with
  | [] => Ok []
  | s :: r =>
      '(d', data, valid) <- biphase_push d s ;;
      if valid : bool then
        let '(prev', b) := delta_decode prev (if data : bool then 1 else 0) in
        bits <- symbol_bits d' prev' r ;; Ok (b :: bits)
      else symbol_bits d' prev r
  end.

(* src/dsp/liquid_wrappers.cc:216-222 and src/dsp/subcarrier.cc:91-104: the rate accepted by the
   resampler when a SubcarrierSet is created for a sample rate *)
Definition f32_target_rate : spec_float := S754_finite false 10944000 (-6).      (* 171'000.f *)
Definition f32_0_005 : spec_float := S754_finite false 10737418 (-31).           (* 0.005f *)
Definition setRatio (ratio : spec_float) : res unit :=
  if SFltb ratio f32_0_005 || SFltb (f32_of_Z 2) ratio
  then Throw "error: Can't support this sample rate" else Ok tt.
Definition SubcarrierSet_create (samplerate : spec_float) : res unit :=
  setRatio (f32_div f32_target_rate samplerate).
