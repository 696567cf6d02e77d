(* C14, C47-C49, C51-C55, C57: inputs, options and the symbol decoders. *)
From Verif.Model Require Import Base Util Float Group Options Tmc Station Input Csv Dsp Channel.
From Verif.Spec Require Import Numerals Inputs Session Identity Cases.
From Verif.Proofs Require Import Tac Numerals InputP DspP HexP HostP RateP.
From Verif.Spec Require Import Host CommandLine.
From Verif.Proofs Require Import CommandP.

Local Open Scope string_scope.
Local Open Scope N_scope.
Local Open Scope list_scope.

(* --- C14 --- *)
(* The groups a program run prints as hex, written line by line to a file and read by another run,
   are the same groups: the same data stream number, and each block received with the same contents
   or missing.  (Groups of which nothing was received are not printed; the end of the file is read
   as one more group of which nothing was received.) *)
Theorem C14_hex_output_read_back : forall env o o' clock gs c c' out, o_output_type o = OutHex ->
  run_groups env o c gs = Ok (c', out) -> Forall received_group gs -> Forall (fun x => snd x <= 3) gs ->
  (o_timestamp o = true -> forall t, ~ In 10 (getTimePointString env t (o_time_format o))) ->
  exists gs' last, read_hex_input o' clock (concat (map (fun l => l ++ [10]) (printed out))) = gs' ++ [last] /\
    Forall2 (fun x g => g_data_stream g = snd x /\ forall n, received g n = received (snd (fst x)) n)
      (filter (fun x => negb (g_isEmpty (snd (fst x)))) gs) gs' /\
    g_data_stream last = 0 /\ forall n, received last n = None.
Proof. exact hex_read_back. Qed.
Print Assumptions C14_hex_output_read_back.

Definition hex_options : Options :=
  mkOptions false false false false false false false false false false false false true false
    (S754_zero false) 1 MPX_stdin OutHex [] [] [].
Definition hex_groups_in : list (Z * Group * N) :=
  [(0%Z, group4 0x2204 0x0408 0xE0E0 0x4142, 0); (1%Z, Group_default, 0); (2%Z, group24 0x0409 0x4344, 2)].
Example C14_case : Forall received_group hex_groups_in /\
  match run_groups plain_host hex_options (Channel_new hex_options 0) hex_groups_in with
  | Ok (_, out) => printed out = [bs "2204 0408 E0E0 4142"; bs "#S2 ---- 0409 ---- 4344"] /\
      map (fun g => (g_data_stream g, received g BLOCK1, received g BLOCK2, received g BLOCK4))
        (read_hex_input hex_options (fun _ => 0%Z) (concat (map (fun l => l ++ [10]) (printed out)))) =
      [(0, Some 0x2204, Some 0x0408, Some 0x4142); (2, None, Some 0x0409, Some 0x4344); (0, None, None, None)]
  | _ => False
  end.
Proof. split; [repeat constructor; reflexivity|]. vm_compute. split; reflexivity. Qed.

(* --- C47 --- *)
(* The bits read are the characters 0 and 1, in order, and one more 0 at the end of the input. *)
Theorem C47_ascii_bits : forall s, ascii_bits s = bit_characters s ++ [false].
Proof. exact ascii_bits_spec. Qed.
Print Assumptions C47_ascii_bits.

(* Without the exception for the end of the input the property is false. *)
Theorem C47_bit_at_end_of_input_refuted : exists s, ascii_bits s <> bit_characters s.
Proof. exists (bs "101"). vm_compute. discriminate. Qed.
Print Assumptions C47_bit_at_end_of_input_refuted.

Example C47_case : ascii_bits (bs "1 0x1
0-") = [true; false; true; false; false].
Proof. vm_compute. reflexivity. Qed.

(* --- C48 --- *)
(* A line with sixteen or more characters that are not spaces, after the data stream mark if any:
   a block is received exactly if its four characters are hexadecimal digits, with that value. *)
Theorem C48_hex_line : forall o now strm text rest c1 c2 c3 c4 c5 c6 c7 c8 c9 c10 c11 c12 c13 c14 c15 c16 r,
  strm <= 3 -> (strm = 0 -> hd 0 text <> 35) ->
  nonblank text = c1 :: c2 :: c3 :: c4 :: c5 :: c6 :: c7 :: c8 :: c9 :: c10 :: c11 :: c12 :: c13 :: c14 :: c15 :: c16 :: r ->
  exists g, readHexGroup o now (marked strm text :: rest) = (g, rest) /\ g_data_stream g = strm /\
    received g BLOCK1 = hex_block c1 c2 c3 c4 /\ received g BLOCK2 = hex_block c5 c6 c7 c8 /\
    received g BLOCK3 = hex_block c9 c10 c11 c12 /\ received g BLOCK4 = hex_block c13 c14 c15 c16.
Proof. exact hex_line. Qed.
Print Assumptions C48_hex_line.

Example C48_case : nonblank (bs "2204 04-8 e0E0 4142 17:05") = bs "220404-8e0E0414217:05" /\
  map (received (fst (readHexGroup Options_default 0 [marked 2 (bs "2204 04-8 e0E0 4142 17:05")]))) [BLOCK1; BLOCK2; BLOCK3; BLOCK4] =
  [Some 0x2204; None; Some 0xE0E0; Some 0x4142].
Proof. split; vm_compute; reflexivity. Qed.

(* On a line that is filled up with spaces, blocks without any digit are taken as received. *)
Theorem C48_short_line_refuted : exists line g, nonblank line = bs "123456789ABC" /\
  readHexGroup Options_default 0 [line] = (g, []) /\ received g BLOCK4 = Some 0.
Proof. exists (bs "1234 5678 9ABC   "). eexists. split; [vm_compute; reflexivity|]. split; vm_compute; reflexivity. Qed.
Print Assumptions C48_short_line_refuted.

(* --- C49 --- *)
(* A line R, three blocks of four digits and two digits of error flags: two bits for each of the
   blocks 1 to 4.  A block is taken as received exactly if the flags of that block and of all blocks
   before it are clear. *)
Theorem C49_tef_line : forall c1 c2 c3 c4 c5 c6 c7 c8 c9 c10 c11 c12 c13 c14 tail rest b2 b3 b4 h l,
  hex_block c1 c2 c3 c4 = Some b2 -> hex_block c5 c6 c7 c8 = Some b3 -> hex_block c9 c10 c11 c12 = Some b4 ->
  hex_value c13 = Some h -> hex_value c14 = Some l ->
  exists g, readTEFGroup ((82 :: c1 :: c2 :: c3 :: c4 :: c5 :: c6 :: c7 :: c8 :: c9 :: c10 :: c11 :: c12 :: c13 :: c14 :: tail) :: rest) = (g, rest) /\
    let flags1 := h / 4 in let flags2 := h mod 4 in let flags3 := l / 4 in let flags4 := l mod 4 in
    (received g BLOCK2 = Some b2 <-> flags1 = 0 /\ flags2 = 0) /\
    (received g BLOCK3 = Some b3 <-> flags1 = 0 /\ flags2 = 0 /\ flags3 = 0) /\
    (received g BLOCK4 = Some b4 <-> flags1 = 0 /\ flags2 = 0 /\ flags3 = 0 /\ flags4 = 0) /\
    Forall (fun n => received g n = None \/ received g n = Some (match n with BLOCK2 => b2 | BLOCK3 => b3 | _ => b4 end))
      [BLOCK2; BLOCK3; BLOCK4].
Proof.
  intros c1 c2 c3 c4 c5 c6 c7 c8 c9 c10 c11 c12 c13 c14 tail rest b2 b3 b4 h l B2 B3 B4 H L.
  destruct (tef_line _ _ _ _ _ _ _ _ _ _ _ _ _ _ tail rest _ _ _ _ _ B2 B3 B4 H L) as (g & R & R2 & R3 & R4).
  assert (LL : l < 16).
  { clear - L. unfold hex_value in L. repeat match type of L with (if ?c then _ else _) = _ => destruct c eqn:?; [injection L as <-|] end; try discriminate L;
    repeat match goal with X : (_ && _)%bool = true |- _ => apply andb_prop in X; destruct X end;
    repeat match goal with X : (_ <=? _) = true |- _ => apply N.leb_le in X end; lia. }
  exists g. split; [exact R|]. cbv zeta. remember (16 * h + l) as e eqn:E. rewrite R2, R3, R4.
  assert (D16 : e / 16 = h) by lia. assert (D4 : e / 4 = 4 * h + l / 4) by lia. rewrite D16, D4, E in *. clear - LL R2 R3 R4.
  split; [|split; [|split]].
  - destruct (N.eqb_spec h 0) as [X|X]; split; intros Y; try discriminate Y; try reflexivity; try (subst h; split; reflexivity); exfalso; lia.
  - destruct (N.eqb_spec (4 * h + l / 4) 0) as [X|X]; split; intros Y; try discriminate Y; try reflexivity; lia.
  - destruct (N.eqb_spec (16 * h + l) 0) as [X|X]; split; intros Y; try discriminate Y; try reflexivity; lia.
  - rewrite !Forall_cons_iff, R2, R3, R4. repeat split; match goal with |- Forall _ [] => constructor | |- (if ?c then _ else _) = _ \/ _ => destruct c; auto end.
Qed.
Print Assumptions C49_tef_line.

Example C49_case : map (received (fst (readTEFGroup [bs "P2204"; bs "R0408E0E0414200"]))) [BLOCK1; BLOCK2; BLOCK3; BLOCK4] =
  [Some 0x2204; Some 0x0408; Some 0xE0E0; Some 0x4142].
Proof. vm_compute. reflexivity. Qed.

(* So the flags are not per block: an error in block 2 alone makes blocks 3 and 4 missing too. *)
Theorem C49_error_flags_of_other_blocks_refuted : exists g, readTEFGroup [bs "R0408E0E0414210"] = (g, []) /\
  received g BLOCK3 = None /\ received g BLOCK4 = None.
Proof. eexists. split; [vm_compute; reflexivity|]. split; vm_compute; reflexivity. Qed.
Print Assumptions C49_error_flags_of_other_blocks_refuted.

(* --- C51 --- *)
(* The bits sent are differentially coded, starting with any bit; the receiver may see them all
   inverted, and starts in any state.  From the second bit on it recovers the data. *)
Theorem C51_differential_decoding : forall inverted first data prev,
  tl (delta_run prev (map (fun b => if xorb inverted b then 1 else 0) (first :: differential first data))) = map N.b2n data.
Proof. exact delta_first. Qed.
Print Assumptions C51_differential_decoding.

Example C51_case : differential true [true; false; true; true] = [false; false; true; false] /\
  delta_run 0 [0; 1; 1; 0; 1] = [0; 1; 0; 1; 1].
Proof. split; vm_compute; reflexivity. Qed.

(* --- C52 --- *)
(* For every sequence of symbols the decoder stays inside its clock history (outside of it the
   model has an undefined result) and the number of bits is half the number of symbols, to within
   one half. *)
Theorem C52_biphase_decoder : forall syms prev, exists bits, symbol_bits BiphaseDecoder_init prev syms = Ok bits /\
  Forall (fun b => b = 0 \/ b = 1) bits /\ (Z.abs (2 * Z.of_nat (length bits) - Z.of_nat (length syms)) <= 1)%Z.
Proof.
  intros syms prev. destruct (symbol_bits_ok syms BiphaseDecoder_init prev bp_init) as (bits & E & F & L). exists bits. split; [exact E|]. split; [exact F|].
  change (imbalance BiphaseDecoder_init) with 0%Z in L. lia.
Qed.
Print Assumptions C52_biphase_decoder.

(* --- C53 --- *)
(* If a command line is accepted (without the error mark that makes the program exit with a failure),
   each number of channels given, as far as it fits in 32 bits, is between 1 and 32, each sample
   rate is neither below 128 kHz nor above 40 MHz, and so are those in effect. *)
Theorem C53_validated : forall ne ops extra o, getOptions ne ops extra = Ok o ->
  (1 <= o_num_channels o <= 32) /\
  (o_is_rate_defined o = true -> SFltb (o_samplerate o) (f32_of_Z 128000) = false /\ SFltb (f32_of_Z 40000000) (o_samplerate o) = false) /\
  (o_init_error o = false ->
    (forall arg, In (OptChar "c" arg) ops -> fst (ne_strtoul ne arg) < 2 ^ 32 -> 1 <= fst (ne_strtoul ne arg) <= 32) /\
    (forall arg, In (OptChar "r" arg) ops -> let rate := f32_mul (fst (ne_strtof ne arg)) (f32_of_Z (rate_unit arg)) in
       SFltb rate (f32_of_Z 128000) = false /\ SFltb (f32_of_Z 40000000) rate = false)).
Proof.
  intros ne ops extra o G. change (f32_of_Z 128000) with kMinimumSampleRate. change (f32_of_Z 40000000) with kMaximumSampleRate. destruct (options_sane _ _ _ _ G) as [[S1 S2] F]. split; [exact S1|]. split; [exact S2|]. intros I. specialize (F I). rewrite Forall_forall in F. split.
  - intros arg H L. destruct (F _ H) as [K _]. destruct (K arg eq_refl) as [K1 _]. rewrite N.mod_small in K1 by exact L. exact K1.
  - intros arg H. cbv zeta. rewrite <- unit_factor. destruct (F _ H) as [_ K]. destruct (K arg eq_refl) as (K1 & K2 & _). split; assumption.
Qed.
Print Assumptions C53_validated.

(* strtoul and strtof for some arguments *)
Definition some_numbers : NumEnv := mkNumEnv
  (fun s => if bytes_eqb s (bs "2") then (2, false) else if bytes_eqb s (bs "33") then (33, false)
            else if bytes_eqb s (bs "4294967297") then (4294967297, false) else (0, false))
  (fun s => if bytes_eqb s (bs "200k") then (f32_of_Z 200, false) else if bytes_eqb s (bs "40000000") then (f32_of_Z 40000000, false)
            else if bytes_eqb s (bs "100000") then (f32_of_Z 100000, false)
            else if bytes_eqb s (bs "nan") then (S754_nan, false) else (S754_zero false, false)).
Example C53_case :
  (exists o, getOptions some_numbers [OptChar "r" (bs "200k"); OptChar "c" (bs "2")] false = Ok o /\ o_num_channels o = 2 /\ o_samplerate o = f32_of_Z 200000) /\
  (exists m, getOptions some_numbers [OptChar "c" (bs "33")] false = Throw m) /\
  (exists m, getOptions some_numbers [OptChar "r" (bs "100000")] false = Throw m).
Proof. split; [|split]; eexists; [split; [|split]|..]; vm_compute; reflexivity. Qed.

(* Numbers of channels are truncated to 32 bits before they are checked. *)
Theorem C53_channels_truncated_refuted : exists o, fst (ne_strtoul some_numbers (bs "4294967297")) = 4294967297 /\
  getOptions some_numbers [OptChar "c" (bs "4294967297")] false = Ok o /\ o_num_channels o = 1.
Proof. eexists. split; [vm_compute; reflexivity|]. split; vm_compute; reflexivity. Qed.
Print Assumptions C53_channels_truncated_refuted.
(* A sample rate that is not a number is accepted. *)
Theorem C53_rate_nan_refuted : exists o, getOptions some_numbers [OptChar "r" (bs "nan")] false = Ok o /\
  o_init_error o = false /\ o_samplerate o = S754_nan.
Proof. eexists. split; [vm_compute; reflexivity|]. split; vm_compute; reflexivity. Qed.
Print Assumptions C53_rate_nan_refuted.

(* --- C57 --- *)
(* The sample rates, in Hz, for which the demodulator can be set up *)
Theorem C57_supported_rates : forall rate, (128000 <= rate <= 40000000)%Z ->
  SubcarrierSet_create (f32_of_Z rate) = Ok tt <-> (rate <= 34200002)%Z.
Proof. exact supported_rate. Qed.
Print Assumptions C57_supported_rates.

(* Higher rates, up to 40 MHz, are accepted on the command line but not supported. *)
Theorem C57_highest_rates_refuted : exists o m, getOptions some_numbers [OptChar "r" (bs "40000000")] false = Ok o /\
  o_init_error o = false /\ SubcarrierSet_create (o_samplerate o) = Throw m.
Proof. eexists. eexists. split; [vm_compute; reflexivity|]. split; vm_compute; reflexivity. Qed.
Print Assumptions C57_highest_rates_refuted.

(* --- C54 --- *)
Theorem C54_csv : forall d fields tail, d <> 10 -> d <> 13 -> Forall (Forall (fun c => c <> d /\ c <> 10 /\ c <> 13)) fields ->
  fields <> [] -> fields <> [[]] -> (tail = [] \/ exists c t, tail = c :: t /\ (c = 13 \/ c = 10) /\ ~ In d t) ->
  row_all (CSVRow_new (separated d fields ++ tail) d) = fields.
Proof. exact csv_split. Qed.
Print Assumptions C54_csv.

Example C54_case : separated 59 [bs "1"; []; bs "Hamburg"] ++ [13] = bs "1;;Hamburg" ++ [13] /\
  row_all (CSVRow_new (bs "1;;Hamburg" ++ [13]) 59) = [bs "1"; []; bs "Hamburg"].
Proof. split; vm_compute; reflexivity. Qed.

(* The exception for the line without any character is needed: it has no field. *)
Theorem C54_empty_line_refuted : exists d, row_all (CSVRow_new (separated d [[]]) d) <> [[]].
Proof. exists 59. vm_compute. discriminate. Qed.
Print Assumptions C54_empty_line_refuted.

(* --- C55 --- *)
(* Bit i of a field of n bits at position s is bit s + i of the word, or of two 16-bit words
   written one after the other. *)
Theorem C55_fields : forall n w s i, N.testbit (getBits n w s) i = (i <? n) && N.testbit w (s + i).
Proof. intros n w s i. rewrite getBits_arith. apply field_bits. Qed.
Print Assumptions C55_fields.
Theorem C55_fields_of_two_words : forall n w1 w2 s i, w1 < 2 ^ 16 -> w2 < 2 ^ 16 ->
  N.testbit (getBits2 n w1 w2 s) i = (i <? n) && N.testbit (w1 * 2 ^ 16 + w2) (s + i).
Proof. intros n w1 w2 s i H1 H2. rewrite getBits2_arith by assumption. apply field_bits. Qed.
Print Assumptions C55_fields_of_two_words.
Theorem C55_flags : forall w s, getBool w s = N.testbit w s.
Proof. exact getBool_testbit. Qed.
Print Assumptions C55_flags.

Example C55_case : getBits 5 0x1F40 6 = 0x1D /\ getBits2 8 0x12AB 0xCD34 12 = 0xBC.
Proof. split; vm_compute; reflexivity. Qed.
