(* src/util.hh:95-125, src/util.cc:83-201: carrier frequencies and the alternative-frequency list. *)
From Verif.Model Require Import Base Util Float.

(* src/util.hh:97 *)
Inductive Band := LF_MF | FM.

(* src/util.hh:107-108, src/util.cc:84 *)
Record CarrierFrequency := mkFreq { cf_code : N; cf_band : Band }.

(* src/util.cc:86-89 *)
Definition cf_isValid (f : CarrierFrequency) : bool :=
  match cf_band f with
  | LF_MF => (1 <=? cf_code f) && (cf_code f <=? 135)
  | FM => (1 <=? cf_code f) && (cf_code f <=? 204)
  end.

(* src/util.cc:92-107 *)
Definition cf_kHz (f : CarrierFrequency) : N :=
  if cf_isValid f then
    match cf_band f with
    | FM => 87500 + 100 * cf_code f
    | LF_MF => if cf_code f <=? 15 then 144 + 9 * cf_code f
               else 522 + 9 * (cf_code f - 15)
    end
  else 0.

(* The literal 1e-3f: the binary32 value nearest to 0.001, 8589935 * 2^-33. *)
Definition f32_milli : spec_float := S754_finite false 8589935 (-33).

(* src/util.cc:110-129 *)
Definition cf_str (f : CarrierFrequency) : bytes :=
  if cf_isValid f then
    match cf_band f with
    | FM => fixed1 (f32_mul (f32_of_Z (Z.of_N (cf_kHz f))) f32_milli) ++ bs " MHz"
    | LF_MF => dec_string (cf_kHz f) ++ bs " kHz"
    end
  else bs "N/A".

(* src/util.hh:111-125  AltFreqList; kilohertz values are non-negative ints *)
Record AltFreqList := mkAF {
  alt_freqs : list N;          (* std::array<int, 25> *)
  num_expected : N;
  num_received : N;
  lf_mf_follows : bool
}.

Definition af_init : AltFreqList := mkAF (repeat 0 25) 0 0 false.

(* src/util.cc:199-201; note that lf_mf_follows_ and the array keep their values *)
Definition af_clear (l : AltFreqList) : AltFreqList :=
  mkAF (alt_freqs l) 0 0 (lf_mf_follows l).

(* src/util.cc:139-170 *)
Definition af_insert (l : AltFreqList) (af_code : N) : res AltFreqList :=
  let frequency := mkFreq af_code (if lf_mf_follows l then LF_MF else FM) in
  let l := mkAF (alt_freqs l) (num_expected l) (num_received l) false in
  if cf_isValid frequency && (0 <? num_expected l) then
    if num_received l <? num_expected l then
      a <- arr_set (alt_freqs l) (num_received l) (cf_kHz frequency) ;;
      Ok (mkAF a (num_expected l) (num_received l + 1) false)
    else Ok (af_clear l)
  else if (af_code =? 205) || (af_code =? 224) then Ok l
  else if (225 <=? af_code) && (af_code <=? 249) then
    Ok (mkAF (alt_freqs l) (af_code - 224) 0 false)
  else if af_code =? 250 then
    Ok (mkAF (alt_freqs l) (num_expected l) (num_received l) true)
  else Ok (af_clear l).

(* src/util.cc:180-185: the loop for (i = 1; i < num_received_; i += 2); [n] bounds the number of
   iterations and is at least the number the loop makes. *)
Fixpoint methodB_loop (n : nat) (a : list N) (tuned received i : N) : res bool :=
  match n with
  | O => Ok true
  | S k =>
      if i <? received then
        freq1 <- arr_get a i ;;
        freq2 <- arr_get a (i + 1) ;;
        if negb (freq1 =? tuned) && negb (freq2 =? tuned) then Ok false
        else methodB_loop k a tuned received (i + 2)
      else Ok true
  end.

(* src/util.cc:173-188 *)
Definition af_isMethodB (l : AltFreqList) : res bool :=
  if negb (num_expected l mod 2 =? 1) || (num_received l <? 3) then Ok false
  else
    tuned <- arr_get (alt_freqs l) 0 ;;
    methodB_loop (N.to_nat (num_received l)) (alt_freqs l) tuned (num_received l) 1.

(* src/util.cc:190-192 *)
Definition af_isComplete (l : AltFreqList) : bool :=
  (num_expected l =? num_received l) && (0 <? num_received l).

(* src/util.cc:195-197; a range past the end of the array is undefined behaviour *)
Definition af_getRawList (l : AltFreqList) : res (list N) :=
  if num_received l <=? N.of_nat (length (alt_freqs l))
  then Ok (firstn (N.to_nat (num_received l)) (alt_freqs l))
  else UB "iterator past the end".
