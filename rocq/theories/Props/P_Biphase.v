(* Bits sent on the subcarrier are recovered from the demodulated symbols: C85. *)
From Verif.Model Require Import Base Util Float Group Options Input Dsp Main.
From Verif.Spec Require Import Inputs Biphase Demod.
From Verif.Proofs Require Import Tac DspP BiphaseP DemodP.
Local Open Scope list_scope.

(* --- C85 --- *)
(* Data bits are coded differentially, and each coded bit is sent as two half-symbols with a step up or down between them
   (or down or up, if the demodulator has locked to the other phase of the carrier).  Whatever half-symbols come before
   the first one, and whatever the levels are, so long as over each 128 half-symbols the steps within the pairs are
   larger, taken together, than those between the pairs: after 65 bits every data bit is recovered.  Symbols are binary32
   numbers z * 2^unit; their imaginary parts do not matter. *)
Theorem C85_bits_recovered : forall unit lead pairs inverted first data symbols previous, usual_unit unit ->
  moderate (lead ++ half_symbols pairs) -> received_as unit (lead ++ half_symbols pairs) symbols ->
  Forall2 rises (map (xorb inverted) (differential first data)) pairs ->
  phase_is (Nat.even (length lead)) (lead ++ half_symbols pairs) ->
  exists dec junk, decode_symbols (BiphaseDecoder_init, if previous : bool then 1 else 0) symbols = Ok (dec, junk ++ skipn 65 data) /\
    (length junk <= length lead + 129)%nat.
Proof.
  intros unit lead pairs inverted first data symbols previous U M R F P. exact (recovered unit lead pairs inverted first data symbols previous U M P F R).
Qed.
Print Assumptions C85_bits_recovered.

Definition c85_data : list bool := flat_map (fun _ => [true; false; false; true; true; true; false]) (repeat tt 12).
Definition c85_pairs (inverted : bool) : list (Z * Z) :=
  map (fun c : bool => if c then (-1000, 900)%Z else (1100, -1000)%Z) (map (xorb inverted) (differential true c85_data)).
Definition c85_symbols (lead : list Z) (inverted : bool) : list (spec_float * spec_float) :=
  map (fun z => (fixed (-10) z, f32_of_Z 3)) (lead ++ half_symbols (c85_pairs inverted)).
Lemma c85_phase : forall (odd : bool) zs, (length zs < 256)%nat ->
  (let '(a, b) := alternate (firstn 128 (steps 0 zs)) in if odd then (a < b)%Z else (b < a)%Z) -> phase_is odd zs.
Proof. intros odd zs L H [|k] K; [exact H|lia]. Qed.
Example C85_case :
  (moderate ([700; 5]%Z ++ half_symbols (c85_pairs false)) /\ received_as (-10) ([700; 5]%Z ++ half_symbols (c85_pairs false)) (c85_symbols [700; 5]%Z false) /\
   Forall2 rises (map (xorb false) (differential true c85_data)) (c85_pairs false) /\
   phase_is true ([700; 5]%Z ++ half_symbols (c85_pairs false)) /\
   exists dec junk, decode_symbols (BiphaseDecoder_init, 0) (c85_symbols [700; 5]%Z false) = Ok (dec, junk ++ skipn 65 c85_data) /\ length (skipn 65 c85_data) = 19%nat) /\
  (moderate ([-3]%Z ++ half_symbols (c85_pairs true)) /\ received_as (-10) ([-3]%Z ++ half_symbols (c85_pairs true)) (c85_symbols [-3]%Z true) /\
   Forall2 rises (map (xorb true) (differential true c85_data)) (c85_pairs true) /\
   phase_is false ([-3]%Z ++ half_symbols (c85_pairs true)) /\
   exists dec junk, decode_symbols (BiphaseDecoder_init, 1) (c85_symbols [-3]%Z true) = Ok (dec, junk ++ skipn 65 c85_data)).
Proof.
  assert (M : forall lead i, moderate lead -> moderate (lead ++ half_symbols (c85_pairs i))).
  { intros lead i H. unfold moderate in *. apply Forall_app. split; [exact H|]. unfold half_symbols, c85_pairs. apply Forall_forall. intros z I. apply in_flat_map in I. destruct I as (p & I & J).
    apply in_map_iff in I. destruct I as (c & <- & _). destruct c; cbn in J; lia. }
  assert (R : forall lead i, received_as (-10) (lead ++ half_symbols (c85_pairs i)) (c85_symbols lead i)).
  { intros lead i. unfold received_as, c85_symbols. rewrite map_map. reflexivity. }
  assert (F : forall i, Forall2 rises (map (xorb i) (differential true c85_data)) (c85_pairs i)).
  { intros i. unfold c85_pairs. induction (map (xorb i) (differential true c85_data)) as [|c l IH]; [constructor|]. cbn [map]. constructor; [destruct c; cbn; lia|exact IH]. }
  assert (L1 : moderate [700; 5]%Z) by (repeat constructor; lia). assert (L2 : moderate [-3]%Z) by (repeat constructor; lia).
  assert (P1 : phase_is true ([700; 5]%Z ++ half_symbols (c85_pairs false))) by (apply c85_phase; [vm_compute; lia|vm_compute; reflexivity]).
  assert (P2 : phase_is false ([-3]%Z ++ half_symbols (c85_pairs true))) by (apply c85_phase; [vm_compute; lia|vm_compute; reflexivity]).
  assert (U : usual_unit (-10)) by (unfold usual_unit; lia).
  split; (split; [apply M; assumption|split; [apply R|split; [apply F|split; [assumption|]]]]).
  - destruct (C85_bits_recovered (-10) [700; 5]%Z _ false true c85_data _ false U (M _ _ L1) (R _ false) (F false) P1) as (dec & junk & E & _). exists dec, junk. split; [exact E|reflexivity].
  - destruct (C85_bits_recovered (-10) [-3]%Z _ true true c85_data _ true U (M _ _ L2) (R _ true) (F true) P2) as (dec & junk & E & _). exists dec, junk. exact E.
Qed.
(* the same, computed *)
Example C85_computed : exists dec junk, decode_symbols (BiphaseDecoder_init, 0) (c85_symbols [700; 5]%Z false) = Ok (dec, junk ++ skipn 65 c85_data) /\ length junk = 66%nat.
Proof. eexists. exists (firstn 66 (match decode_symbols (BiphaseDecoder_init, 0) (c85_symbols [700; 5]%Z false) with Ok (_, l) => l | _ => [] end)). split; [vm_compute; reflexivity|vm_compute; reflexivity]. Qed.

(* The data streams do not disturb each other: the bits of each are those of the symbols found for it, and its decoder has
   seen only those. *)
Theorem C85_streams_apart : forall (D : Type) (lq : Liquid D) streams samples s s' bits, NoDup streams -> Forall (fun n => n < 4) streams ->
  length (ss_decoders s) = 4%nat -> process_samples lq streams samples s = Ok (s', bits) ->
  let symbols := snd (found_in lq (ss_sample_num s) samples streams (ss_liquid s)) in
  (forall i n, nth_error streams i = Some n -> exists dec dec', nth_error (ss_decoders s) (N.to_nat n) = Some dec /\ nth_error (ss_decoders s') (N.to_nat n) = Some dec' /\
     decode_symbols dec (nth i symbols []) = Ok (dec', nth i bits [])) /\
  (forall n, ~ In n streams -> nth_error (ss_decoders s') (N.to_nat n) = nth_error (ss_decoders s) (N.to_nat n)).
Proof.
  intros D lq streams samples s s' bits ND F4 L4 E. destruct (in_samples lq streams ND F4 samples s s' bits L4 E) as (_ & _ & _ & _ & _ & K1 & K2). split; [exact K2|exact K1].
Qed.
Print Assumptions C85_streams_apart.
Definition c85_liquid : Liquid unit := mkLiquid (fun _ => tt) (fun d x => (d, [x])) (fun d n x turn => (d, if turn : bool then Some (f32_mul x (f32_of_Z (1 - 2 * Z.of_N n)), x) else None)) (fun d => d).
Example C85_streams_case : let s := mkSubcarrierSet 0 (f32_of_Z 1) tt (repeat (BiphaseDecoder_init, 0) 4) in
  NoDup [0; 1; 2; 3] /\ exists s' bits, process_samples c85_liquid [0; 1; 2; 3] (flat_map (fun z => f32_of_Z z :: repeat (f32_of_Z 7) 23) [1; -1; 3; 3; -2]%Z) s = Ok (s', bits) /\
  bits = [[true; false; true]; [false; false; true]; [false; false; true]; [false; false; true]].
Proof. cbv zeta. split; [repeat constructor; cbn; intuition discriminate|]. do 2 eexists. split; [vm_compute; reflexivity|reflexivity]. Qed.
