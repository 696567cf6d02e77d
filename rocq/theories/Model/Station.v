(* src/groups.hh:123-186 and src/groups.cc:49-61, 230-1309: a station and its group decoders. *)
From Verif.Model Require Import Base Util Float Group Options Tables Freq RdsString Rft Json Tmc.

(* Broken-down time, struct tm without the members the program does not read. *)
Record Tm := mkTm { tm_year : Z; tm_mon : Z; tm_mday : Z; tm_hour : Z; tm_min : Z; tm_sec : Z }.

(* Everything the decoders ask of the operating system and of external libraries.  Theorems
   quantify over all environments. *)
Record Env := mkEnv {
  (* iconv from UCS-2 to UTF-8; None is a conversion error (src/text/rdsstring.cc:62-68) *)
  env_ucs2 : bytes -> option bytes;
  (* what() of the iconv error *)
  env_what_iconv : bytes;
  (* what() of the error of writing this value *)
  env_what_json : json -> bytes;
  (* strftime(format, localtime(seconds)); None is a return value of 0 *)
  env_strftime : bytes -> Z -> option bytes;
  (* *localtime(mktime(&tm)) *)
  env_localtime : Tm -> Tm;
  (* text of a double in JSON *)
  env_float : spec_float -> bytes;
  (* TMC tables read from files *)
  env_tmc : TmcData
}.

(* The first occurrence of "%f" replaced by [by]; None if there is none *)
Fixpoint replace_percent_f (by_ s : bytes) : option bytes :=
  match s with
  | 37 :: ((102 :: r) as _s') => Some (by_ ++ r)
  | c :: r => match replace_percent_f by_ r with Some r' => Some (c :: r') | None => None end
  | [] => None
  end.

(* src/util.cc:40-67.  Time points are nanoseconds since the epoch; durations are cast towards
   zero.  (The 64-byte buffer is part of the strftime oracle.) *)
Definition getTimePointString (env : Env) (timepoint : Z) (format : bytes) : bytes :=
  let seconds := Z.quot timepoint 1000000000 in
  let ms := Z.quot (timepoint - seconds * 1000000000) 1000000 in
  let hundredths := Z.rem (Z.quot ms 10) 10 in
  let tenths := Z.rem (Z.quot ms 100) 10 in
  let format_with_fractional :=
    match replace_percent_f (dec_string_Z tenths ++ dec_string_Z hundredths) format with
    | Some f => f
    | None => format
    end in
  match env_strftime env format_with_fractional seconds with
  | None => bs "(format error)"
  | Some s => s
  end.

(* src/groups.hh:147-183.  The members pin_, ecc_, cc_, tmc_id_, linkage_la_, clock_time_,
   has_country_, ert_uses_chartable_e3_ and pager_ are written but never influence any output and
   are left out (with Pager::decode1ABlock4, src/groups.cc:1311-1323).  std::maps are association
   lists, newest first.  options_ is passed to each function. *)
Record Station := mkStation {
  st_pi : N;
  st_has_pi : bool;
  st_which_channel : N;
  st_ps : RDSString;
  st_long_ps : RDSString;
  st_radiotext : RadioText;
  st_ert : RadioText;
  st_ptyname : PTYName;
  st_full_tdc : RDSString;
  st_oda_app_for_group : list (GroupType * N);
  st_oda_app_for_pipe : list (N * N);
  st_eon_ps_names : list (N * RDSString);
  st_eon_alt_freqs : list (N * AltFreqList);
  st_last_group_had_pi : bool;
  st_alt_freq_list : AltFreqList;
  st_tmc : TMCService;
  st_rft_file : list RFTFile
}.

(* src/groups.cc:236-237 *)
Definition Station_new (which_channel : N) : Station :=
  mkStation 0 false which_channel ProgramServiceName_default LongPS_default RadioText_default
    RadioText_default PTYName_default (RDSString_new 128) [] [] [] [] false af_init TMCService_init
    (repeat rft_init 16).

(* src/groups.cc:239-246 *)
Definition Station_new_pi (which_channel pi : N) : Station :=
  mkStation pi true which_channel ProgramServiceName_default LongPS_default RadioText_default
    RadioText_default PTYName_default (RDSString_new 128) [] [] [] [] false af_init TMCService_init
    (repeat rft_init 16).

(* Assignments to single members *)
Definition set_ps (s : Station) v := mkStation (st_pi s) (st_has_pi s) (st_which_channel s) v
  (st_long_ps s) (st_radiotext s) (st_ert s) (st_ptyname s) (st_full_tdc s) (st_oda_app_for_group s)
  (st_oda_app_for_pipe s) (st_eon_ps_names s) (st_eon_alt_freqs s) (st_last_group_had_pi s)
  (st_alt_freq_list s) (st_tmc s) (st_rft_file s).
Definition set_long_ps (s : Station) v := mkStation (st_pi s) (st_has_pi s) (st_which_channel s)
  (st_ps s) v (st_radiotext s) (st_ert s) (st_ptyname s) (st_full_tdc s) (st_oda_app_for_group s)
  (st_oda_app_for_pipe s) (st_eon_ps_names s) (st_eon_alt_freqs s) (st_last_group_had_pi s)
  (st_alt_freq_list s) (st_tmc s) (st_rft_file s).
Definition set_radiotext (s : Station) v := mkStation (st_pi s) (st_has_pi s) (st_which_channel s)
  (st_ps s) (st_long_ps s) v (st_ert s) (st_ptyname s) (st_full_tdc s) (st_oda_app_for_group s)
  (st_oda_app_for_pipe s) (st_eon_ps_names s) (st_eon_alt_freqs s) (st_last_group_had_pi s)
  (st_alt_freq_list s) (st_tmc s) (st_rft_file s).
Definition set_ert (s : Station) v := mkStation (st_pi s) (st_has_pi s) (st_which_channel s)
  (st_ps s) (st_long_ps s) (st_radiotext s) v (st_ptyname s) (st_full_tdc s) (st_oda_app_for_group s)
  (st_oda_app_for_pipe s) (st_eon_ps_names s) (st_eon_alt_freqs s) (st_last_group_had_pi s)
  (st_alt_freq_list s) (st_tmc s) (st_rft_file s).
Definition set_ptyname (s : Station) v := mkStation (st_pi s) (st_has_pi s) (st_which_channel s)
  (st_ps s) (st_long_ps s) (st_radiotext s) (st_ert s) v (st_full_tdc s) (st_oda_app_for_group s)
  (st_oda_app_for_pipe s) (st_eon_ps_names s) (st_eon_alt_freqs s) (st_last_group_had_pi s)
  (st_alt_freq_list s) (st_tmc s) (st_rft_file s).
Definition set_full_tdc (s : Station) v := mkStation (st_pi s) (st_has_pi s) (st_which_channel s)
  (st_ps s) (st_long_ps s) (st_radiotext s) (st_ert s) (st_ptyname s) v (st_oda_app_for_group s)
  (st_oda_app_for_pipe s) (st_eon_ps_names s) (st_eon_alt_freqs s) (st_last_group_had_pi s)
  (st_alt_freq_list s) (st_tmc s) (st_rft_file s).
Definition set_oda_group (s : Station) v := mkStation (st_pi s) (st_has_pi s) (st_which_channel s)
  (st_ps s) (st_long_ps s) (st_radiotext s) (st_ert s) (st_ptyname s) (st_full_tdc s) v
  (st_oda_app_for_pipe s) (st_eon_ps_names s) (st_eon_alt_freqs s) (st_last_group_had_pi s)
  (st_alt_freq_list s) (st_tmc s) (st_rft_file s).
Definition set_oda_pipe (s : Station) v := mkStation (st_pi s) (st_has_pi s) (st_which_channel s)
  (st_ps s) (st_long_ps s) (st_radiotext s) (st_ert s) (st_ptyname s) (st_full_tdc s)
  (st_oda_app_for_group s) v (st_eon_ps_names s) (st_eon_alt_freqs s) (st_last_group_had_pi s)
  (st_alt_freq_list s) (st_tmc s) (st_rft_file s).
Definition set_eon_ps (s : Station) v := mkStation (st_pi s) (st_has_pi s) (st_which_channel s)
  (st_ps s) (st_long_ps s) (st_radiotext s) (st_ert s) (st_ptyname s) (st_full_tdc s)
  (st_oda_app_for_group s) (st_oda_app_for_pipe s) v (st_eon_alt_freqs s) (st_last_group_had_pi s)
  (st_alt_freq_list s) (st_tmc s) (st_rft_file s).
Definition set_eon_af (s : Station) v := mkStation (st_pi s) (st_has_pi s) (st_which_channel s)
  (st_ps s) (st_long_ps s) (st_radiotext s) (st_ert s) (st_ptyname s) (st_full_tdc s)
  (st_oda_app_for_group s) (st_oda_app_for_pipe s) (st_eon_ps_names s) v (st_last_group_had_pi s)
  (st_alt_freq_list s) (st_tmc s) (st_rft_file s).
Definition set_had_pi (s : Station) v := mkStation (st_pi s) (st_has_pi s) (st_which_channel s)
  (st_ps s) (st_long_ps s) (st_radiotext s) (st_ert s) (st_ptyname s) (st_full_tdc s)
  (st_oda_app_for_group s) (st_oda_app_for_pipe s) (st_eon_ps_names s) (st_eon_alt_freqs s) v
  (st_alt_freq_list s) (st_tmc s) (st_rft_file s).
Definition set_af (s : Station) v := mkStation (st_pi s) (st_has_pi s) (st_which_channel s)
  (st_ps s) (st_long_ps s) (st_radiotext s) (st_ert s) (st_ptyname s) (st_full_tdc s)
  (st_oda_app_for_group s) (st_oda_app_for_pipe s) (st_eon_ps_names s) (st_eon_alt_freqs s)
  (st_last_group_had_pi s) v (st_tmc s) (st_rft_file s).
Definition set_tmc (s : Station) v := mkStation (st_pi s) (st_has_pi s) (st_which_channel s)
  (st_ps s) (st_long_ps s) (st_radiotext s) (st_ert s) (st_ptyname s) (st_full_tdc s)
  (st_oda_app_for_group s) (st_oda_app_for_pipe s) (st_eon_ps_names s) (st_eon_alt_freqs s)
  (st_last_group_had_pi s) (st_alt_freq_list s) v (st_rft_file s).
Definition set_rft (s : Station) v := mkStation (st_pi s) (st_has_pi s) (st_which_channel s)
  (st_ps s) (st_long_ps s) (st_radiotext s) (st_ert s) (st_ptyname s) (st_full_tdc s)
  (st_oda_app_for_group s) (st_oda_app_for_pipe s) (st_eon_ps_names s) (st_eon_alt_freqs s)
  (st_last_group_had_pi s) (st_alt_freq_list s) (st_tmc s) v.

Definition debug (text : bytes) (j : json) : res json := jpush ["debug"%string] (JStr text) j.

(* src/groups.cc:49-61; [path] designates the object the result is written to *)
Definition decodePIN (pin : N) (path : list string) (j : json) : res (bool * json) :=
  let day := getBits 5 pin 11 in
  let hour := getBits 5 pin 6 in
  let minute := getBits 6 pin 0 in
  if (1 <=? day) && (hour <=? 24) && (minute <=? 59) then
    j <- jset (path ++ ["prog_item_number"%string]) (JN pin) j ;;
    j <- jset (path ++ ["prog_item_started"%string; "day"%string]) (JN day) j ;;
    j <- jset (path ++ ["prog_item_started"%string; "time"%string])
              (JStr (getHoursMinutesString (Z.of_N hour) (Z.of_N minute))) j ;;
    Ok (true, j)
  else Ok (false, j).

Definition pty_string (o : Options) (pty : N) : bytes :=
  if o_rbds o then getPTYNameStringRBDS pty else getPTYNameString pty.

(* src/groups.cc:390-411 *)
Definition decodeBasics (o : Options) (g : Group) (j : json) : res json :=
  let basics (b : blockNumber) (with_group : bool) :=
    let pty := getBits 5 (g_get g b) 5 in
    j <- (if with_group then jset ["group"%string] (JStr (GroupType_str (g_type g))) j else Ok j) ;;
    j <- jset ["tp"%string] (JBool (getBool (g_get g b) 10)) j ;;
    jset ["prog_type"%string] (JStr (pty_string o pty)) j in
  if Version_eqb (gt_version (g_type g)) VC then jset ["group"%string] (JS "C") j
  else if g_has g BLOCK2 then basics BLOCK2 (g_has_type g)
  else if (gt_number (g_type g) =? 15) && Version_eqb (gt_version (g_type g)) VB && g_has g BLOCK4
  then basics BLOCK4 true
  else Ok j.

(* src/groups.cc:450-472: the frequency pairs of a method B list; freqs are the raw frequencies
   from index 1 on.  Gives the list of alternative frequencies and of regional variants. *)
Fixpoint methodB_pairs (tuned : N) (freqs : list N) : res (list N * list N) :=
  match freqs with
  | [] => Ok ([], [])
  | [_] => UB "raw_frequencies[i + 1] out of range"
  | freq1 :: freq2 :: r =>
      let non_tuned := if freq1 =? tuned then freq2 else freq1 in
      '(afs, regs) <- methodB_pairs tuned r ;;
      if freq1 <? freq2 then Ok (non_tuned :: afs, regs) else Ok (afs, non_tuned :: regs)
  end.

(* Size of a std::set built from the list *)
Definition unique_count (l : list N) : N := N.of_nat (length (nodup N.eq_dec l)).

(* src/groups.cc:435-493: block 3 of a 0A group *)
Definition decodeAF (o : Options) (l : AltFreqList) (block3 : N) (j : json) : res (AltFreqList * json) :=
  l <- af_insert l (getUint8 block3 8) ;;
  l <- af_insert l (getUint8 block3 0) ;;
  if af_isComplete l then
    raw <- af_getRawList l ;;
    isB <- af_isMethodB l ;;
    if isB then
      match raw with
      | [] => UB "raw_frequencies[0] out of range"
      | tuned :: rest =>
          '(afs, regs) <- methodB_pairs tuned rest ;;
          j <- (if unique_count afs + unique_count regs =? N.of_nat (length raw) / 2 then
                  j <- jset ["alt_frequencies_b"%string; "tuned_frequency"%string] (JN tuned) j ;;
                  j <- jpush_all ["alt_frequencies_b"%string; "same_programme"%string] (map JN afs) j ;;
                  jpush_all ["alt_frequencies_b"%string; "regional_variants"%string] (map JN regs) j
                else Ok j) ;;
          Ok (af_clear l, j)
      end
    else
      j <- jpush_all ["alt_frequencies_a"%string] (map JN raw) j ;;
      Ok (af_clear l, j)
  else if o_show_partial o then
    raw <- af_getRawList l ;;
    j <- jpush_all ["partial_alt_frequencies"%string] (map JN raw) j ;;
    Ok (l, j)
  else Ok (l, j).

(* src/groups.cc:414-513 *)
Definition decodeType0 (env : Env) (o : Options) (st : Station) (g : Group) (j : json)
    : res (Station * json) :=
  let b2 := g_get g BLOCK2 in
  let segment_address := getBits 2 b2 0 in
  j <- jset ["di"%string; getDICodeString segment_address] (JBool (getBool b2 2)) j ;;
  j <- jset ["ta"%string] (JBool (getBool b2 4)) j ;;
  j <- jset ["is_music"%string] (JBool (getBool b2 3)) j ;;
  if negb (g_has g BLOCK3) then
    isB <- af_isMethodB (st_alt_freq_list st) ;;
    Ok (if isB then set_af st (af_clear (st_alt_freq_list st)) else st, j)
  else
    '(st, j) <- (if Version_eqb (gt_version (g_type g)) VA then
                   '(l, j) <- decodeAF o (st_alt_freq_list st) (g_get g BLOCK3) j ;;
                   Ok (set_af st l, j)
                 else Ok (st, j)) ;;
    if negb (g_has g BLOCK4) then Ok (st, j)
    else
      let ps := s_set2 (env_ucs2 env) (st_ps st) (segment_address * 2)
                  (getUint8 (g_get g BLOCK4) 8) (getUint8 (g_get g BLOCK4) 0) in
      let st := set_ps st ps in
      if s_isComplete ps then
        j <- jset ["ps"%string] (JStr (s_last_complete_string ps)) j ;; Ok (st, j)
      else if o_show_partial o then
        match s_str (env_ucs2 env) ps with
        | Some t => j <- jset ["partial_ps"%string] (JStr t) j ;; Ok (st, j)
        | None => j <- debug (env_what_iconv env) j ;; Ok (st, j)
        end
      else Ok (st, j).

(* src/groups.cc:516-587 *)
Definition decodeType1 (st : Station) (g : Group) (j : json) : res json :=
  if negb (g_has g BLOCK3 && g_has g BLOCK4) then Ok j
  else
    let b3 := g_get g BLOCK3 in
    let pin := g_get g BLOCK4 in
    j <- (if pin =? 0 then Ok j
          else '(ok, j) <- decodePIN pin [] j ;;
               if ok : bool then Ok j else debug (bs "invalid PIN") j) ;;
    if Version_eqb (gt_version (g_type g)) VA then
      j <- jset ["has_linkage"%string] (JBool (getBool b3 15)) j ;;
      match getBits 3 b3 12 with
      | 0 =>
          let ecc := getUint8 b3 0 in
          let cc := getBits 4 (st_pi st) 12 in
          if ecc =? 0 then Ok j
          else c <- getCountryString cc ecc ;; jset ["country"%string] (JStr c) j
      | 1 => jset ["tmc_id"%string] (JN (getBits 12 b3 0)) j
      | 2 => Ok j
      | 3 => jset ["language"%string] (JStr (getLanguageString (getUint8 b3 0))) j
      | 6 => jset ["slc_broadcaster_bits"%string]
               (JStr (bs "0x" ++ getHexString 3 (getBits 11 b3 0))) j
      | 7 => jset ["ews"%string] (JN (getBits 12 b3 0)) j
      | v => debug (bs "TODO: SLC variant " ++ dec_string v) j
      end
    else Ok j.

(* src/groups.cc:598-674 *)
Definition decodeType2 (env : Env) (o : Options) (st : Station) (g : Group) (j : json)
    : res (Station * json) :=
  if negb (g_has g BLOCK3 && g_has g BLOCK4) then Ok (st, j)
  else
    let ucs2 := env_ucs2 env in
    let b2 := g_get g BLOCK2 in
    let b3 := g_get g BLOCK3 in
    let b4 := g_get g BLOCK4 in
    let isA := Version_eqb (gt_version (g_type g)) VA in
    let position := getBits 4 b2 0 * (if isA then 4 else 2) in
    let ab := getBool b2 4 in
    let '(is_ab_changed, rt) := rt_isABChanged (st_radiotext st) ab in
    j <- (if o_show_partial o then jset ["rt_ab"%string] (JS (if ab then "B" else "A")) j else Ok j) ;;
    let candidate :=
      (position =? 0) && (1 <? s_getReceivedLength (rt_text rt)) &&
      negb (s_isComplete (rt_text rt)) && negb (s_hasPreviouslyReceivedTerminators (rt_text rt)) in
    (* the rest of the function, with has_potentially_complete_message and the message *)
    let continue (rt : RadioText) (has_message : bool) (message : bytes) : res (Station * json) :=
      let rt := if is_ab_changed : bool then rt_set_text rt (s_clear (rt_text rt)) else rt in
      let rt := if isA
                then rt_update ucs2 (rt_set_text rt (s_resize (rt_text rt) 64)) position
                       (getUint8 b3 8) (getUint8 b3 0)
                else rt_set_text rt (s_resize (rt_text rt) 32) in
      let rt := rt_update ucs2 rt (position + (if isA then 2 else 0)) (getUint8 b4 8) (getUint8 b4 0) in
      let st := set_radiotext st rt in
      if s_isComplete (rt_text rt) then
        j <- jset ["radiotext"%string] (JStr (rtrim (s_last_complete_string (rt_text rt)))) j ;; Ok (st, j)
      else if has_message then
        j <- jset ["radiotext"%string] (JStr (rtrim message)) j ;; Ok (st, j)
      else if o_show_partial o then
        match s_str ucs2 (rt_text rt) with
        | Some t => match rtrim t with
                    | [] => Ok (st, j)
                    | _ => j <- jset ["partial_radiotext"%string] (JStr t) j ;; Ok (st, j)
                    end
        | None => j <- debug (env_what_iconv env) j ;; Ok (st, j)
        end
      else Ok (st, j) in
    if candidate then
      match s_str ucs2 (rt_text rt) with
      | None => j <- debug (env_what_iconv env) j ;; Ok (set_radiotext st rt, j)
      | Some t =>
          let message := rtrim t in
          continue (rt_set_previous rt message)
            (bytes_eqb message (rt_previous_potentially_complete_message rt)) message
      end
    else continue rt false [].

Definition set_plus_oda (p : Plus) (message : N) : Plus :=
  mkPlus true (getBool message 12) (getBits 4 message 8) (getUint8 message 0) (plus_toggle p)
    (plus_item_running p).

(* src/groups.cc:677-733 *)
Definition decodeType3A (st : Station) (g : Group) (j : json) : res (Station * json) :=
  if negb (g_has g BLOCK3 && g_has g BLOCK4) then Ok (st, j)
  else if negb (Version_eqb (gt_version (g_type g)) VA) then Ok (st, j)
  else
    let oda_group_type := GroupType_of (getBits 5 (g_get g BLOCK2) 0) in
    let oda_message := g_get g BLOCK3 in
    let oda_app_id := g_get g BLOCK4 in
    let st := set_oda_group st ((oda_group_type, oda_app_id) :: st_oda_app_for_group st) in
    j <- jset ["open_data_app"%string; "oda_group"%string] (JStr (GroupType_str oda_group_type)) j ;;
    j <- jset ["open_data_app"%string; "app_name"%string] (JStr (getAppNameString oda_app_id)) j ;;
    if oda_app_id =? 0x0093 then Ok (st, j)
    else if oda_app_id =? 0x4BD7 then
      Ok (set_radiotext st (rt_set_plus (st_radiotext st)
            (set_plus_oda (rt_plus (st_radiotext st)) oda_message)), j)
    else if oda_app_id =? 0x4BD8 then
      Ok (set_ert st (rt_set_plus (st_ert st) (set_plus_oda (rt_plus (st_ert st)) oda_message)), j)
    else if oda_app_id =? 0x6552 then
      let t := rt_text (st_ert st) in
      let t := s_setEncoding t (if getBool oda_message 0 then EncUTF8 else EncUCS2) in
      let t := s_setDirection t (if getBool oda_message 1 then RTL else LTR) in
      Ok (set_ert st (rt_set_text (st_ert st) t), j)
    else if (oda_app_id =? 0xCD46) || (oda_app_id =? 0xCD47) then
      '(t, j) <- receiveSystemGroup (st_tmc st) oda_message j ;;
      Ok (set_tmc st t, j)
    else
      j <- debug (bs "TODO: Unimplemented ODA app " ++ getHexString 4 oda_app_id) j ;;
      j <- jset ["open_data_app"%string; "message"%string] (JN oda_message) j ;;
      Ok (st, j).

(* The binary64 values of the literals 15078.2, 14956.1, 30.6001 and 365.25 *)
Definition f64_15078_2 : spec_float := S754_finite false 8289328112966042 (-39).
Definition f64_14956_1 : spec_float := S754_finite false 8222202928090317 (-39).
Definition f64_30_6001 : spec_float := S754_finite false 8613162434843745 (-48).
Definition f64_365_25 : spec_float := S754_finite false 6425545952722944 (-44).

(* src/groups.cc:748-760: year (full), month 1..12 (as computed) and day from the modified Julian
   date *)
Definition mjd_to_date (mjd : N) : res (Z * Z * Z) :=
  let d := f64_of_Z (Z.of_N mjd) in
  year <- sf_trunc (f64_div (f64_sub d f64_15078_2) f64_365_25) ;;
  yd <- sf_trunc (f64_mul (f64_of_Z year) f64_365_25) ;;
  month <- sf_trunc (f64_div (f64_sub (f64_sub d f64_14956_1) (f64_of_Z yd)) f64_30_6001) ;;
  md <- sf_trunc (f64_mul (f64_of_Z month) f64_30_6001) ;;
  day <- sf_trunc (f64_sub (f64_sub (f64_sub d (f64_of_Z 14956)) (f64_of_Z yd)) (f64_of_Z md)) ;;
  if (month =? 14)%Z || (month =? 15)%Z
  then Ok (year + 1 + 1900, month - 12 - 1, day)%Z
  else Ok (year + 1900, month - 1, day)%Z.

(* "%0wd" *)
Definition fmt_0d (w : nat) (z : Z) : bytes :=
  if (z <? 0)%Z then 45 :: pad_left 48 (w - 1) (dec_string (Z.to_N (- z)))
  else pad_left 48 w (dec_string (Z.to_N z)).

(* src/groups.cc:736-803.  local_offset is a multiple of one half and exact in binary64; it is the
   integer number of half hours [half] here. *)
Definition decodeType4A (env : Env) (g : Group) (j : json) : res json :=
  if negb (g_has g BLOCK3 && g_has g BLOCK4) then Ok j
  else
    let b4 := g_get g BLOCK4 in
    let mjd := getBits2 17 (g_get g BLOCK2) (g_get g BLOCK3) 1 in
    if mjd <? 15079 then debug (bs "invalid date/time") j
    else
      '(year, month, day) <- mjd_to_date mjd ;;
      let hour := getBits2 5 (g_get g BLOCK3) b4 12 in
      let minute := getBits 6 b4 6 in
      let half := ((if getBool b4 5 then -1 else 1) * Z.of_N (getBits 5 b4 0))%Z in
      let local_tm := env_localtime env
        (mkTm (year - 1900) (month - 1) day (Z.of_N hour) (Z.of_N minute) (half * 1800)) in
      let offset_hour := Z.abs (Z.quot half 2) in
      if (hour <=? 23) && (minute <=? 59) && (offset_hour <=? 14)%Z then
        let offset_min := ((half - 2 * Z.quot half 2) * 30)%Z in
        let date := fmt_0d 4 (tm_year local_tm + 1900) ++ [45] ++ fmt_0d 2 (tm_mon local_tm + 1)
                    ++ [45] ++ fmt_0d 2 (tm_mday local_tm) ++ [84] ++ fmt_0d 2 (tm_hour local_tm)
                    ++ [58] ++ fmt_0d 2 (tm_min local_tm) ++ bs ":00" in
        let text :=
          if (offset_hour =? 0)%Z && (offset_min =? 0)%Z then date ++ bs "Z"
          else date ++ (if (0 <? half)%Z then bs "+" else bs "-") ++ fmt_0d 2 offset_hour ++ [58]
               ++ fmt_0d 2 (Z.abs offset_min) in
        jset ["clock_time"%string] (JStr text) j
      else debug (bs "invalid date/time") j.

Definition tdata (k : string) : list string := ["transparent_data"%string; k].

(* Text of a string whose encoding is Basic (str() cannot fail) *)
Definition str_basic (env : Env) (s : RDSString) : res bytes :=
  match s_str (env_ucs2 env) s with Some t => Ok t | None => Throw "iconv" end.

(* src/groups.cc:806-847 *)
Definition decodeType5 (env : Env) (st : Station) (g : Group) (j : json) : res (Station * json) :=
  let ucs2 := env_ucs2 env in
  let address := getBits 5 (g_get g BLOCK2) 0 in
  j <- jset (tdata "address") (JN address) j ;;
  let d2 := getUint8 (g_get g BLOCK4) 8 in
  let d3 := getUint8 (g_get g BLOCK4) 0 in
  if Version_eqb (gt_version (g_type g)) VA then
    let d0 := getUint8 (g_get g BLOCK3) 8 in
    let d1 := getUint8 (g_get g BLOCK3) 0 in
    j <- jset (tdata "raw") (JStr (join (map (getHexString 2) [d0; d1; d2; d3]) [32])) j ;;
    let decoded := s_set2 ucs2 (s_set2 ucs2 (RDSString_new 4) 0 d0 d1) 2 d2 d3 in
    let full := s_set2 ucs2 (st_full_tdc st) (address * 4) d0 d1 in
    let full := s_set2 ucs2 full (address * 4 + 2) d2 d3 in
    let st := set_full_tdc st full in
    j <- (if s_isComplete full then
            text <- str_basic env full ;;
            j <- jset (tdata "full_text") (JStr text) j ;;
            jset (tdata "full_raw") (JStr (join (map (getHexString 2) (s_getData full)) [32])) j
          else Ok j) ;;
    text <- str_basic env decoded ;;
    j <- jset (tdata "as_text") (JStr text) j ;;
    Ok (st, j)
  else
    j <- jset (tdata "raw") (JStr (getHexString 2 d2 ++ [32] ++ getHexString 2 d3)) j ;;
    text <- str_basic env (s_set2 ucs2 (RDSString_new 2) 0 d2 d3) ;;
    j <- jset (tdata "as_text") (JStr text) j ;;
    Ok (st, j).

(* src/groups.cc:850-865 *)
Definition decodeType6 (g : Group) (j : json) : res json :=
  let push v := jpush ["in_house_data"%string] (JN v) in
  j <- push (getBits 5 (g_get g BLOCK2) 0) j ;;
  if Version_eqb (gt_version (g_type g)) VA then
    if g_has g BLOCK3 then
      j <- push (getBits 16 (g_get g BLOCK3) 0) j ;;
      if g_has g BLOCK4 then push (getBits 16 (g_get g BLOCK4) 0) j else Ok j
    else Ok j
  else if g_has g BLOCK4 then push (getBits 16 (g_get g BLOCK4) 0) j else Ok j.

(* src/groups.cc:880-896; PTYName::isABChanged is src/text/radiotext.hh:70-74 *)
Definition decodeType10A (env : Env) (st : Station) (g : Group) (j : json) : res (Station * json) :=
  if negb (g_has g BLOCK3) || negb (g_has g BLOCK4) then Ok (st, j)
  else
    let ab := getBool (g_get g BLOCK2) 4 in
    let t := pn_text (st_ptyname st) in
    let t := if Bool.eqb (pn_ab (st_ptyname st)) ab then t else s_clear t in
    let t := pn_update (env_ucs2 env) t (getBits 1 (g_get g BLOCK2) 0 * 4)
               (getUint8 (g_get g BLOCK3) 8) (getUint8 (g_get g BLOCK3) 0)
               (getUint8 (g_get g BLOCK4) 8) (getUint8 (g_get g BLOCK4) 0) in
    let st := set_ptyname st (mkPTYName t ab) in
    if s_isComplete t then
      j <- jset ["pty_name"%string] (JStr (s_last_complete_string t)) j ;; Ok (st, j)
    else Ok (st, j).

Definition on (k : string) : list string := ["other_network"%string; k].

(* src/groups.cc:899-993 *)
Definition decodeType14 (env : Env) (o : Options) (st : Station) (g : Group) (j : json)
    : res (Station * json) :=
  if negb (g_has g BLOCK4) then Ok (st, j)
  else
    let b2 := g_get g BLOCK2 in
    let b3 := g_get g BLOCK3 in
    let on_pi := g_get g BLOCK4 in
    j <- jset (on "pi") (JStr (getPrefixedHexString 4 on_pi)) j ;;
    j <- jset (on "tp") (JBool (getBool b2 4)) j ;;
    if Version_eqb (gt_version (g_type g)) VB then
      j <- jset (on "ta") (JBool (getBool b2 3)) j ;; Ok (st, j)
    else if negb (g_has g BLOCK3) then Ok (st, j)
    else
      let variant := getBits 4 b2 0 in
      if variant <=? 3 then
        let ps := match find_code on_pi (st_eon_ps_names st) with Some p => p | None => RDSString_new 8 end in
        let ps := s_set (env_ucs2 env) ps (2 * variant) (getUint8 b3 8) in
        let ps := s_set (env_ucs2 env) ps (2 * variant + 1) (getUint8 b3 0) in
        let st := set_eon_ps st ((on_pi, ps) :: st_eon_ps_names st) in
        if s_isComplete ps then
          j <- jset (on "ps") (JStr (s_last_complete_string ps)) j ;; Ok (st, j)
        else Ok (st, j)
      else if variant =? 4 then
        let l := match find_code on_pi (st_eon_alt_freqs st) with Some l => l | None => af_init end in
        l <- af_insert l (getUint8 b3 8) ;;
        l <- af_insert l (getUint8 b3 0) ;;
        if af_isComplete l then
          raw <- af_getRawList l ;;
          j <- jpush_all (on "alt_frequencies") (map JN raw) j ;;
          Ok (set_eon_af st ((on_pi, af_clear l) :: st_eon_alt_freqs st), j)
        else Ok (set_eon_af st ((on_pi, l) :: st_eon_alt_freqs st), j)
      else if variant <=? 9 then
        let f := mkFreq (getUint8 b3 0) FM in
        if cf_isValid f then j <- jset (on "kilohertz") (JN (cf_kHz f)) j ;; Ok (st, j)
        else Ok (st, j)
      else if variant =? 12 then
        let has_linkage := getBool b3 15 in
        let lsn := getBits 12 b3 0 in
        j <- jset (on "has_linkage") (JBool has_linkage) j ;;
        if has_linkage && negb (lsn =? 0)
        then j <- jset (on "linkage_set") (JN lsn) j ;; Ok (st, j)
        else Ok (st, j)
      else if variant =? 13 then
        j <- jset (on "prog_type") (JStr (pty_string o (getBits 5 b3 11))) j ;;
        j <- jset (on "ta") (JBool (getBool b3 0)) j ;;
        Ok (st, j)
      else if variant =? 14 then
        if b3 =? 0 then Ok (st, j)
        else '(_, j) <- decodePIN b3 ["other_network"%string] j ;; Ok (st, j)
      else if variant =? 15 then
        j <- jset (on "broadcaster_data") (JStr (getHexString 4 b3)) j ;; Ok (st, j)
      else
        j <- debug (bs "TODO: EON variant " ++ dec_string variant) j ;; Ok (st, j).

(* src/groups.cc:997-1020 *)
Definition decodeType15A (env : Env) (o : Options) (st : Station) (g : Group) (j : json)
    : res (Station * json) :=
  let ucs2 := env_ucs2 env in
  let segment_address := getBits 3 (g_get g BLOCK2) 0 in
  let t := st_long_ps st in
  let t := if g_has g BLOCK3
           then s_set2 ucs2 t (segment_address * 4)
                  (getUint8 (g_get g BLOCK3) 8) (getUint8 (g_get g BLOCK3) 0) else t in
  let t := if g_has g BLOCK4
           then s_set2 ucs2 t (segment_address * 4 + 2)
                  (getUint8 (g_get g BLOCK4) 8) (getUint8 (g_get g BLOCK4) 0) else t in
  let st := set_long_ps st t in
  if (g_has g BLOCK3 || g_has g BLOCK4) && s_isComplete t then
    j <- jset ["long_ps"%string] (JStr (rtrim (s_last_complete_string t))) j ;; Ok (st, j)
  else if o_show_partial o then
    match s_str ucs2 t with
    | Some x => j <- jset ["partial_long_ps"%string] (JStr x) j ;; Ok (st, j)
    | None => j <- debug (env_what_iconv env) j ;; Ok (st, j)
    end
  else Ok (st, j).

(* src/groups.cc:1023-1031 *)
Definition decodeType15B (g : Group) (j : json) : res json :=
  let bn := if g_has g BLOCK2 then BLOCK2 else BLOCK4 in
  j <- jset ["di"%string; getDICodeString (getBits 2 (g_get g BLOCK2) 0)]
         (JBool (getBool (g_get g BLOCK2) 2)) j ;;
  j <- jset ["ta"%string] (JBool (getBool (g_get g bn) 4)) j ;;
  jset ["is_music"%string] (JBool (getBool (g_get g bn) 3)) j.

(* src/groups.cc:1232-1246: one tag *)
Definition rtplus_tag (rt : RadioText) (path : list string) (content_type start len : N) (j : json)
    : res json :=
  let text := s_getLastCompleteSubstring (rt_text rt) start len in
  match text with
  | [] => Ok j
  | _ =>
      if content_type =? 0 then Ok j
      else jpush (path ++ ["tags"%string])
             (JObj [("content-type"%string, JStr (getRTPlusContentTypeString content_type));
                    ("data"%string, JStr (rtrim text))]) j
  end.

(* src/groups.cc:1209-1247; [path] designates json_el *)
Definition parseRadioTextPlus (g : Group) (rt : RadioText) (path : list string) (j : json)
    : res (RadioText * json) :=
  let b2 := g_get g BLOCK2 in
  let b3 := g_get g BLOCK3 in
  let b4 := g_get g BLOCK4 in
  let item_toggle := getBool b2 4 in
  let item_running := getBool b2 3 in
  let p := rt_plus rt in
  let rt :=
    if negb (Bool.eqb item_toggle (plus_toggle p)) || negb (Bool.eqb item_running (plus_item_running p))
    then rt_set_plus (rt_set_text rt (s_clear (rt_text rt)))
           (mkPlus (plus_exists p) (plus_cb p) (plus_scb p) (plus_template_num p) item_toggle item_running)
    else rt in
  j <- jset (path ++ ["item_running"%string]) (JBool item_running) j ;;
  j <- jset (path ++ ["item_toggle"%string]) (JN (if item_toggle then 1 else 0)) j ;;
  j <- (if g_has g BLOCK3
        then rtplus_tag rt path (getBits2 6 b2 b3 13) (getBits 6 b3 7) (getBits 6 b3 1 + 1) j
        else Ok j) ;;
  j <- (if g_has g BLOCK3 && g_has g BLOCK4
        then rtplus_tag rt path (getBits2 6 b3 b4 11) (getBits 6 b4 5) (getBits 5 b4 0 + 1) j
        else Ok j) ;;
  Ok (rt, j).

(* src/groups.cc:1250-1262 *)
Definition parseEnhancedRT (env : Env) (st : Station) (g : Group) (j : json) : res (Station * json) :=
  let ucs2 := env_ucs2 env in
  let position := getBits 5 (g_get g BLOCK2) 0 * 4 in
  let rt := rt_update ucs2 (st_ert st) position (getUint8 (g_get g BLOCK3) 8) (getUint8 (g_get g BLOCK3) 0) in
  let rt := if g_has g BLOCK4
            then rt_update ucs2 rt (position + 2) (getUint8 (g_get g BLOCK4) 8) (getUint8 (g_get g BLOCK4) 0)
            else rt in
  let st := set_ert st rt in
  if s_isComplete (rt_text rt) then
    j <- jset ["enhanced_radiotext"%string] (JStr (rtrim (s_last_complete_string (rt_text rt)))) j ;;
    Ok (st, j)
  else Ok (st, j).

Definition dab_modes : list string :=
  ["unspecified"%string; "I"%string; "II or III"%string; "IV"%string].

(* src/groups.cc:1265-1309 *)
Definition parseDAB (g : Group) (j : json) : res json :=
  let b2 := g_get g BLOCK2 in
  let dab k := ["dab"%string; k] in
  if getBool b2 4 then debug (bs "TODO: DAB service table") j
  else
    j <- jset (dab "mode"%string) (JS (nth (N.to_nat (getBits 2 b2 2)) dab_modes EmptyString)) j ;;
    let freq := 16 * getBits2 18 b2 (g_get g BLOCK3) 0 in
    j <- jset (dab "kilohertz"%string) (JN freq) j ;;
    j <- (match find_code freq dab_channels with
          | Some c => jset (dab "channel"%string) (JS c) j
          | None => Ok j
          end) ;;
    jset (dab "ensemble_id"%string) (JStr (getPrefixedHexString 4 (g_get g BLOCK4))) j.

(* std::map<GroupType, uint16_t>::find *)
Fixpoint find_type (t : GroupType) (l : list (GroupType * N)) : option N :=
  match l with
  | [] => None
  | (t', v) :: r => if GroupType_eqb t t' then Some v else find_type t r
  end.

(* src/groups.cc:1036-1039 and 1070-1073 *)
Definition oda_raw (g : Group) : bytes :=
  getHexString 2 (N.land (g_get g BLOCK2) 0x1F) ++ [32] ++
  (if g_has g BLOCK3 then getHexString 4 (g_get g BLOCK3) else bs "----") ++ [32] ++
  (if g_has g BLOCK4 then getHexString 4 (g_get g BLOCK4) else bs "----").

(* src/groups.cc:358-361 and 1061-1065 *)
Definition receiveTMC (env : Env) (st : Station) (g : Group) (j : json) : res (Station * json) :=
  if g_has g BLOCK2 && g_has g BLOCK3 && g_has g BLOCK4 then
    '(t, j) <- receiveUserGroup (env_tmc env) (env_ucs2 env) (st_tmc st)
                 (getBits 5 (g_get g BLOCK2) 0) (g_get g BLOCK3) (g_get g BLOCK4) j ;;
    Ok (set_tmc st t, j)
  else Ok (st, j).

(* src/groups.cc:1034-1075 *)
Definition decodeODAGroup (env : Env) (st : Station) (g : Group) (j : json) : res (Station * json) :=
  let unk k := ["unknown_oda"%string; k] in
  match find_type (g_type g) (st_oda_app_for_group st) with
  | None => j <- jset (unk "raw_data"%string) (JStr (oda_raw g)) j ;; Ok (st, j)
  | Some app =>
      if app =? 0x0093 then j <- parseDAB g j ;; Ok (st, j)
      else if app =? 0x4BD7 then
        '(rt, j) <- parseRadioTextPlus g (st_radiotext st) ["radiotext_plus"%string] j ;;
        Ok (set_radiotext st rt, j)
      else if app =? 0x4BD8 then
        '(rt, j) <- parseRadioTextPlus g (st_ert st) ["ert_plus"%string] j ;;
        Ok (set_ert st rt, j)
      else if app =? 0x6552 then parseEnhancedRT env st g j
      else if (app =? 0xCD46) || (app =? 0xCD47) then receiveTMC env st g j
      else
        j <- jset (unk "app_id"%string) (JStr (getHexString 4 app)) j ;;
        j <- jset (unk "app_name"%string) (JStr (getAppNameString app)) j ;;
        j <- jset (unk "raw_data"%string) (JStr (oda_raw g)) j ;;
        Ok (st, j)
  end.

Definition oda (k : string) : list string := ["open_data_app"%string; k].
Definition rftd (k : string) : list string := ["rft"%string; "data"%string; k].
Definition rfti (k : string) : list string := ["rft"%string; "file_info"%string; k].
Definition rftc (k : string) : list string := ["rft"%string; "crc_info"%string; k].

(* src/groups.cc:1088-1117: an RFT data group *)
Definition decodeC_rft (st : Station) (g : Group) (pipe : N) (j : json) : res (Station * json) :=
  let b1 := g_get g BLOCK1 in
  let b2 := g_get g BLOCK2 in
  let b3 := g_get g BLOCK3 in
  let b4 := g_get g BLOCK4 in
  let toggle := getBits 1 b1 7 in
  let segment_address := getBits2 15 b1 b2 8 in
  j <- (match find_code pipe (st_oda_app_for_pipe st) with
        | Some app => jset (oda "app_name") (JStr (getAppNameString app)) j
        | None => Ok j
        end) ;;
  j <- jset (rftd "pipe") (JN pipe) j ;;
  j <- jset (rftd "toggle") (JN toggle) j ;;
  j <- jset (rftd "byte_address") (JN (segment_address * 5)) j ;;
  f <- arr_get (st_rft_file st) pipe ;;
  let f := rft_receive f toggle segment_address b2 b3 b4 in
  j <- jset (rftd "segment_data")
         (jnums [getBits 8 b2 0; getBits 8 b3 8; getBits 8 b3 0; getBits 8 b4 8; getBits 8 b4 0]) j ;;
  '(f, j) <- (if rft_hasNewCompleteFile f then
                let '(text, f) := rft_getBase64Data f in
                j <- jset (rftd "file_contents") (JStr text) j ;;
                Ok (rft_clear f, j)
              else Ok (f, j)) ;;
  files <- arr_set (st_rft_file st) pipe f ;;
  Ok (set_rft st files, j).

(* src/groups.cc:1132-1198: assignment of an ODA to a channel (assignment method 1) *)
Definition decodeC_assign (st : Station) (g : Group) (channel : N) (j : json) : res (Station * json) :=
  let b2 := g_get g BLOCK2 in
  let b3 := g_get g BLOCK3 in
  let b4 := g_get g BLOCK4 in
  j <- jset (oda "channel") (JN channel) j ;;
  j <- jset (oda "oda_aid") (JN b2) j ;;
  let st := set_oda_pipe st ((channel, b2) :: st_oda_app_for_pipe st) in
  j <- jset (oda "app_name") (JStr (getAppNameString b2)) j ;;
  if channel <? 16 then
    let variant := getBits 4 b3 12 in
    if variant =? 0 then
      let crc_flag := getBool b3 11 in
      let size := getBits2 18 b3 b4 0 in
      f <- arr_get (st_rft_file st) channel ;;
      files <- arr_set (st_rft_file st) channel (rft_setCRCFlag (rft_setSize f size) crc_flag) ;;
      let st := set_rft st files in
      j <- jset (rfti "version") (JN (getBits 3 b3 8)) j ;;
      j <- jset (rfti "id") (JN (getBits 6 b3 2)) j ;;
      j <- jset (rfti "size") (JN size) j ;;
      j <- jset (rfti "has_crc") (JBool crc_flag) j ;;
      Ok (st, j)
    else if variant =? 1 then
      let mode := getBits 3 b3 9 in
      let address := getBits 9 b3 0 in
      f <- arr_get (st_rft_file st) channel ;;
      f <- rft_receiveCRC f (mkChunkCRC mode address b4 false) ;;
      files <- arr_set (st_rft_file st) channel f ;;
      let st := set_rft st files in
      if mode =? 0 then j <- jset (rftc "file_crc16") (JN b4) j ;; Ok (st, j)
      else if (mode <=? 5) || (mode =? 7) then
        j <- jset (rftc "chunk_crc16") (JN b4) j ;;
        j <- jset (rftc "chunk_address") (JN address) j ;;
        j <- jset (rftc "crc_mode") (JN mode) j ;;
        Ok (st, j)
      else j <- debug (bs "TODO: CRC mode " ++ dec_string mode) j ;; Ok (st, j)
    else if 8 <=? variant then
      j <- jset (oda "non_file_oda_data") (JStr (getHexString 7 (getBits2 28 b3 b4 0))) j ;; Ok (st, j)
    else
      j <- jset (oda "file_oda_data") (JStr (getHexString 7 (getBits2 28 b3 b4 0))) j ;; Ok (st, j)
  else
    j <- jset (oda "app_data")
           (jnums [getBits 8 b3 8; getBits 8 b3 0; getBits 8 b4 8; getBits 8 b4 0]) j ;;
    Ok (st, j).

(* src/groups.cc:1078-1206 *)
Definition decodeC (st : Station) (g : Group) (j : json) : res (Station * json) :=
  if negb (g_has g BLOCK1) || negb (g_has g BLOCK2) || negb (g_has g BLOCK3) || negb (g_has g BLOCK4)
  then Ok (st, j)
  else
    let b1 := g_get g BLOCK1 in
    let b2 := g_get g BLOCK2 in
    let b3 := g_get g BLOCK3 in
    let b4 := g_get g BLOCK4 in
    let fid := getBits 2 b1 14 in
    let fn := getBits 6 b1 8 in
    if (fid =? 0) && (fn =? 0) then
      j <- debug (bs "TODO: Tunnelling A & B over type C") j ;; Ok (st, j)
    else if (fid =? 0) && (N.land fn 0x30 =? 0x20) then decodeC_rft st g (N.land fn 0xF) j
    else if fid =? 1 then
      j <- jset (oda "channel") (JN fn) j ;;
      j <- jset (oda "app_data")
             (jnums [getBits 8 b1 0; getBits 8 b2 8; getBits 8 b2 0; getBits 8 b3 8; getBits 8 b3 0;
                     getBits 8 b4 8; getBits 8 b4 0]) j ;;
      Ok (st, j)
    else if (fid =? 2) && (fn =? 0) then
      let method := getBits 2 b1 6 + 1 in
      if method =? 1 then decodeC_assign st g (getBits 6 b1 0) j
      else j <- debug (bs "TODO: assignment method " ++ dec_string method) j ;; Ok (st, j)
    else
      j <- debug (bs "TODO: FID " ++ dec_string fid ++ bs " FN " ++ dec_string fn) j ;;
      j <- jset (oda "data")
             (jnums [getBits 8 b2 8; getBits 8 b2 0; getBits 8 b3 8; getBits 8 b3 0;
                     getBits 8 b4 8; getBits 8 b4 0]) j ;;
      Ok (st, j).

(* src/groups.cc:322-369: dispatch on the group type *)
Definition decodeByType (env : Env) (o : Options) (st : Station) (g : Group) (j : json)
    : res (Station * json) :=
  let number := gt_number (g_type g) in
  let isA := Version_eqb (gt_version (g_type g)) VA in
  let isB := Version_eqb (gt_version (g_type g)) VB in
  let keep (r : res json) : res (Station * json) := j <- r ;; Ok (st, j) in
  if Version_eqb (gt_version (g_type g)) VC then decodeC st g j
  else if number =? 0 then decodeType0 env o st g j
  else if number =? 1 then keep (decodeType1 st g j)
  else if number =? 2 then decodeType2 env o st g j
  else if (number =? 3) && isA then decodeType3A st g j
  else if (number =? 4) && isA then keep (decodeType4A env g j)
  else if (number =? 10) && isA then decodeType10A env st g j
  else if number =? 14 then decodeType14 env o st g j
  else if (number =? 15) && isB then keep (decodeType15B g j)
  else match find_type (g_type g) (st_oda_app_for_group st) with
  | Some _ => decodeODAGroup env st g j
  | None =>
      if number =? 5 then decodeType5 env st g j
      else if number =? 6 then keep (decodeType6 g j)
      else if (number =? 7) && isA then keep (debug (bs "TODO: 7A") j)
      else if (number =? 8) && isA then receiveTMC env st g j
      else if (number =? 9) && isA then keep (debug (bs "TODO: 9A") j)
      else if (number =? 15) && isA then decodeType15A env o st g j
      else decodeODAGroup env st g j
  end.

(* src/groups.cc:287-303 *)
Definition decodeHeader (env : Env) (o : Options) (st : Station) (g : Group) (j : json) : res json :=
  j <- (if o_timestamp o
        then jset ["rx_time"%string]
               (JStr (getTimePointString env (g_time_received g) (o_time_format o))) j
        else Ok j) ;;
  j <- (if g_has_bler g
        then b <- sf_lround (g_bler g) ;; jset ["bler"%string] (JInt b) j
        else Ok j) ;;
  j <- (if 1 <? o_num_channels o then jset ["channel"%string] (JN (st_which_channel st)) j else Ok j) ;;
  if o_show_raw o then jset ["raw_data"%string] (JStr (g_printHex g)) j else Ok j.

(* src/groups.cc:371-382: what is written for the object (without the line end) *)
Definition print_json (env : Env) (j : json) : res bytes :=
  match json_print (env_float env) j with
  | Ok text => Ok text
  | _ => json_print (env_float env) (JObj [("debug"%string, JStr (env_what_json env j))])
  end.

(* src/groups.cc:274-283 *)
Definition decodeCallsign (o : Options) (st : Station) (j : json) : res json :=
  if o_rbds o then
    match getCallsignFromPI (st_pi st) with
    | [] => Ok j
    | callsign =>
        jset [if N.land (st_pi st) 0xF000 =? 0x1000 then "callsign_uncertain"%string
              else "callsign"%string] (JStr callsign) j
    end
  else Ok j.

(* src/groups.cc:249-383.  Result: new state and the line printed, if any (without the line end).
   json_ starts as an empty object: json_.clear() leaves it null or empty, and a key is always set
   before it is printed. *)
Definition updateAndPrint (env : Env) (o : Options) (st : Station) (g : Group)
    : res (Station * option bytes) :=
  if negb (st_has_pi st) then Ok (st, None)
  else
    j <- (if o_streams o then jset ["stream"%string] (JN (g_data_stream g)) (JObj []) else Ok (JObj [])) ;;
    let finish (st : Station) (j : json) : res (Station * option bytes) :=
      j <- decodeHeader env o st g j ;;
      j <- decodeBasics o g j ;;
      '(st, j) <- (if g_has_type g then decodeByType env o st g j else Ok (st, j)) ;;
      text <- print_json env j ;;
      Ok (st, Some text) in
    if Version_eqb (gt_version (g_type g)) VC then finish st j
    else if negb (g_hasPI g) && negb (st_last_group_had_pi st) then Ok (st, None)
    else
      let st := set_had_pi st (g_hasPI g) in
      if g_isEmpty g then Ok (st, None)
      else
        j <- jset ["pi"%string] (JStr (getPrefixedHexString 4 (st_pi st))) j ;;
        j <- decodeCallsign o st j ;;
        finish st j.
