(* src/dsp/liquid_wrappers.cc and src/dsp/subcarrier.cc: the demodulator down to the objects of
   liquid-dsp.  What those objects compute (filters, gain control, oscillator, symbol
   synchroniser, modem) is an oracle, one for each object; what redsea does with them, and how the
   resampler keeps its pace, is modelled.  [liquid_of] makes one of the oracles Model/Main.v works
   with out of them. *)
From Verif.Model Require Import Base Util Float Dsp Input Main.

Definition Complex : Type := (spec_float * spec_float)%type.

(* The objects of liquid-dsp: their states, how they start (set up as in
   src/dsp/subcarrier.cc:93-102) and what they do.
   - nco_*: src/dsp/liquid_wrappers.cc:82-139 (nco_crcf_step, _get_phase, _pll_step, and _reset with
     the frequency set again);
   - fir_*: src/dsp/liquid_wrappers.cc:56-80;
   - agc_*: src/dsp/liquid_wrappers.cc:37-54;
   - sync_*: src/dsp/liquid_wrappers.cc:141-172; the list is what symsync_crcf_execute writes (that
     it never writes more than the 8 elements there is room for is not modelled);
   - modem_*: src/dsp/liquid_wrappers.cc:174-212;
   - res_*: src/dsp/liquid_wrappers.cc:214-243: the filter of the resampler and its output at a
     phase;
   - c_polar and c_mul: std::polar(1.f, .) and the product of two complex numbers. *)
Record Parts := mkParts {
  NcoT : Type; FirT : Type; AgcT : Type; SyncT : Type; ModemT : Type; ResT : Type;
  nco_new : NcoT; nco_step : NcoT -> NcoT; nco_phase : NcoT -> spec_float;
  nco_pll : NcoT -> spec_float -> NcoT; nco_reset : NcoT -> NcoT;
  fir_new : FirT; fir_push : FirT -> Complex -> FirT; fir_execute : FirT -> Complex;
  agc_new : AgcT; agc_execute : AgcT -> Complex -> AgcT * Complex;
  sync_new : SyncT; sync_execute : SyncT -> Complex -> SyncT * list Complex; sync_reset : SyncT -> SyncT;
  modem_new : ModemT; modem_demodulate : ModemT -> Complex -> ModemT; modem_phase_error : ModemT -> spec_float;
  res_new : ResT; res_push : ResT -> spec_float -> ResT; res_output : ResT -> N -> spec_float;
  c_polar : spec_float -> Complex; c_mul : Complex -> Complex -> Complex
}.

(* src/dsp/liquid_wrappers.hh:26-27: kPi and k2Pi as binary32 *)
Definition f32_pi : spec_float := S754_finite false 13176795 (-22).
Definition f32_2pi : spec_float := f32_mul (f32_of_Z 2) f32_pi.
Definition f32_opp : spec_float -> spec_float := SFopp.

(* src/dsp/liquid_wrappers.hh:90-114: class NCO *)
Record Nco (P : Parts) := mkNco {
  o_object : NcoT P;
  o_prev_f0_phase : spec_float;
  o_phases : list spec_float
}.
Arguments mkNco {P}.
Arguments o_object {P}.
Arguments o_prev_f0_phase {P}.
Arguments o_phases {P}.
Definition Nco_new (P : Parts) : Nco P := mkNco (nco_new P) (S754_zero false) (repeat (S754_zero false) 4).

(* src/dsp/liquid_wrappers.cc:100-103 *)
Definition Nco_reset {P : Parts} (o : Nco P) : Nco P := mkNco (nco_reset P (o_object o)) (o_prev_f0_phase o) (o_phases o).

(* src/dsp/liquid_wrappers.cc:105-107 *)
Definition mixDown {P : Parts} (o : Nco P) (s : Complex) (n : N) : res Complex :=
  phase <- arr_get (o_phases o) n ;; Ok (c_mul P s (c_polar P (f32_opp phase))).

(* src/dsp/liquid_wrappers.cc:109-115 *)
Definition unwrap (phase : spec_float) : spec_float :=
  if SFltb f32_pi phase then f32_sub phase f32_2pi
  else if SFltb phase (f32_opp f32_pi) then f32_add phase f32_2pi
  else phase.

(* src/dsp/liquid_wrappers.cc:126 *)
Definition subcarrier_frequencies : list spec_float := map f32_of_Z [57000; 66500; 71250; 76000]%Z.

(* src/dsp/liquid_wrappers.cc:117-131 *)
Definition Nco_step {P : Parts} (o : Nco P) : Nco P :=
  let object := nco_step P (o_object o) in
  let phase_now := nco_phase P object in
  let delta := unwrap (f32_sub phase_now (o_prev_f0_phase o)) in
  mkNco object phase_now
    (map (fun p => unwrap (f32_add (fst p) (f32_div (f32_mul delta (snd p)) (f32_of_Z 57000))))
       (combine (o_phases o) subcarrier_frequencies)).

(* src/dsp/liquid_wrappers.cc:137-139 *)
Definition stepPLL {P : Parts} (o : Nco P) (dphi : spec_float) : Nco P :=
  mkNco (nco_pll P (o_object o) dphi) (o_prev_f0_phase o) (o_phases o).

(* std::max and std::min *)
Definition f32_max (a b : spec_float) : spec_float := if SFltb a b then b else a.
Definition f32_min (a b : spec_float) : spec_float := if SFltb b a then b else a.

(* src/dsp/subcarrier.hh:46-54, without the biphase and delta decoders, which are in Model/Main.v *)
Record Demod (P : Parts) := mkDemod {
  d_agc : AgcT P; d_fir : FirT P; d_sync : SyncT P; d_nco : Nco P; d_modem : ModemT P
}.
Arguments mkDemod {P}.
Arguments d_agc {P}.
Arguments d_fir {P}.
Arguments d_sync {P}.
Arguments d_nco {P}.
Arguments d_modem {P}.
Definition Demod_new (P : Parts) : Demod P := mkDemod (agc_new P) (fir_new P) (sync_new P) (Nco_new P) (modem_new P).

(* src/dsp/subcarrier.cc:170-209: one sample in the context of data stream n, but for the decoders;
   12.0f is kPLLMultiplier.  A symbol is valid if the synchroniser gave exactly one
   (src/dsp/liquid_wrappers.cc:171). *)
Definition demod_sample {P : Parts} (d : Demod P) (n : N) (x : spec_float) (turn : bool) : res (Demod P * option Complex) :=
  baseband <- mixDown (d_nco d) (x, S754_zero false) n ;;
  let fir := fir_push P (d_fir d) baseband in
  if turn then
    let '(agc, lopass) := agc_execute P (d_agc d) (fir_execute P fir) in
    let '(sync, out) := sync_execute P (d_sync d) lopass in
    match out with
    | [symbol] =>
        let modem := modem_demodulate P (d_modem d) symbol in
        let phase_error := f32_min (f32_max (modem_phase_error P modem) (f32_opp f32_pi)) f32_pi in
        let nco := stepPLL (d_nco d) (f32_mul phase_error (f32_of_Z 12)) in
        Ok (mkDemod agc fir sync (Nco_step nco) modem, Some symbol)
    | _ => Ok (mkDemod agc fir sync (Nco_step (d_nco d)) (d_modem d), None)
    end
  else Ok (mkDemod (d_agc d) fir (d_sync d) (Nco_step (d_nco d)) (d_modem d), None).

(* The resampler, resamp_rrrf of liquid-dsp: a filter and a phase, in units of 2^-24 input samples;
   every output moves the phase on by a step, every input by 2^24.  This pace is what is assumed of
   liquid-dsp here. *)
Record Resampler (P : Parts) := mkResampler { r_filter : ResT P; r_phase : N; r_step : N }.
Arguments mkResampler {P}.
Arguments r_filter {P}.
Arguments r_phase {P}.
Arguments r_step {P}.

(* resamp_rrrf_set_rate: (uint32_t)round((1 << 24) / rate), the quotient being a float.  (The 32 bits
   are enough for every ratio setRatio accepts, also for the phase.) *)
Definition step_of (ratio : spec_float) : N :=
  match sf_lround (f32_div (f32_of_Z (2 ^ 24)) ratio) with
  | Ok z => Z.to_N z
  | _ => 0
  end.

(* resamp_rrrf_execute: all outputs at phases below 2^24.  At most [room] of them are written; the
   result is None if there are more, which is a write behind the end of the array (or, if the step
   is 0, no end at all). *)
Fixpoint res_outputs {P : Parts} (room : nat) (filter : ResT P) (phase step : N) : option (N * list spec_float) :=
  if phase <? 2 ^ 24 then
    match room with
    | O => None
    | S room => match res_outputs room filter (phase + step) step with
                | Some (phase', l) => Some (phase', res_output P filter phase :: l)
                | None => None
                end
    end
  else Some (phase - 2 ^ 24, []).

Definition kOutputArraySize : nat := 2.       (* src/dsp/liquid_wrappers.hh:157 *)

(* src/dsp/liquid_wrappers.cc:235-243 *)
Definition res_execute {P : Parts} (r : Resampler P) (x : spec_float) : res (Resampler P * list spec_float) :=
  let filter := res_push P (r_filter r) x in
  match res_outputs kOutputArraySize filter (r_phase r) (r_step r) with
  | Some (phase, l) => Ok (mkResampler filter phase (r_step r), l)
  | None => UB "more samples than there is room for in resamp_output"
  end.

(* src/io/input.hh:35-38; kMaxResampleRatio is 171000.f / 128000.f (src/constants.hh:36) *)
Definition kInputChunkSize : N := 8192.
Definition kBufferSize : N := 8192 * 171000 / 128000 + 1.

(* src/dsp/subcarrier.cc:126-139: the resampled samples, written into an array of kBufferSize
   elements from index i on *)
Fixpoint resample_into {P : Parts} (r : Resampler P) (i : N) (chunk : list spec_float) : res (Resampler P * list spec_float) :=
  match chunk with
  | [] => Ok (r, [])
  | x :: rest =>
      '(r, l) <- res_execute r x ;;
      let i := i + N.of_nat (length l) in
      if kBufferSize <? i then UB "write behind the end of resampled_chunk_"
      else '(r, l') <- resample_into r i rest ;; Ok (r, l ++ l')
  end.

(* The state of the liquid-dsp objects of one SubcarrierSet *)
Record Objects (P : Parts) := mkObjects { q_resampler : Resampler P; q_demods : list (Demod P) }.
Arguments mkObjects {P}.
Arguments q_resampler {P}.
Arguments q_demods {P}.

(* src/dsp/subcarrier.cc:91-104 *)
Definition Objects_new (P : Parts) (samplerate : spec_float) : Objects P :=
  mkObjects (mkResampler (res_new P) 0 (step_of (f32_div f32_target_rate samplerate))) (repeat (Demod_new P) 4).

(* src/dsp/subcarrier.cc:106-112 *)
Definition Demod_reset {P : Parts} (d : Demod P) : Demod P :=
  mkDemod (d_agc d) (d_fir d) (sync_reset P (d_sync d)) (Nco_reset (d_nco d)) (d_modem d).

(* The oracle of Model/Main.v made of these parts.  Where an operation could not go on (which is
   proved not to happen) it leaves everything as it is. *)
Definition liquid_of (P : Parts) : Liquid (Objects P) :=
  mkLiquid (Objects_new P)
    (fun q x => match res_execute (q_resampler q) x with
                | Ok (r, l) => (mkObjects r (q_demods q), l)
                | _ => (q, [])
                end)
    (fun q n x turn =>
       match (d <- arr_get (q_demods q) n ;; demod_sample d n x turn) with
       | Ok (d, symbol) => (mkObjects (q_resampler q) (list_set (q_demods q) (N.to_nat n) d), symbol)
       | _ => (q, None)
       end)
    (fun q => mkObjects (q_resampler q) (map Demod_reset (q_demods q))).
