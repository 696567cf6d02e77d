(* src/block_sync.cc, src/block_sync.hh and RunningSum of src/util.hh: from bits to groups. *)
From Verif.Model Require Import Base Util Group.

(* src/block_sync.cc:33-39 *)
Definition kMaxTolerableBLER : N := 85.
Definition kMaxErrorsToleratedOver50Blocks : N := kMaxTolerableBLER / 2.
Definition kBlockLength : N := 26.
Definition kBlockBitmask : N := N.shiftl 1 kBlockLength - 1.
Definition kCheckwordLength : N := 10.

(* src/block_sync.cc:42-53 *)
Definition getBlockNumberForOffset (o : Offset) : blockNumber :=
  match o with
  | OffA => BLOCK1
  | OffB => BLOCK2
  | OffC | OffCprime => BLOCK3
  | OffD => BLOCK4
  | OffInvalid => BLOCK1
  end.

(* src/block_sync.cc:56-67 *)
Definition getNextOffsetFor (o : Offset) : Offset :=
  match o with
  | OffA => OffB
  | OffB => OffC
  | OffC => OffD
  | OffCprime => OffD
  | OffD => OffA
  | OffInvalid => OffA
  end.

(* src/block_sync.cc:70-80; the binary constants are written in hexadecimal *)
Definition getOffsetForSyndrome (syndrome : N) : Offset :=
  if syndrome =? 0x3D8 then OffA            (* 0b1111011000 *)
  else if syndrome =? 0x3D4 then OffB       (* 0b1111010100 *)
  else if syndrome =? 0x25C then OffC       (* 0b1001011100 *)
  else if syndrome =? 0x3CC then OffCprime  (* 0b1111001100 *)
  else if syndrome =? 0x258 then OffD       (* 0b1001011000 *)
  else OffInvalid.

(* src/block_sync.cc:86-113 *)
Definition parity_check_matrix : list N :=
  [ 0x200; 0x100; 0x080; 0x040; 0x020; 0x010; 0x008; 0x004; 0x002; 0x001;
    0x2DC; (* 0b1011011100 *)
    0x16E; (* 0b0101101110 *)
    0x0B7; (* 0b0010110111 *)
    0x287; (* 0b1010000111 *)
    0x39F; (* 0b1110011111 *)
    0x313; (* 0b1100010011 *)
    0x355; (* 0b1101010101 *)
    0x376; (* 0b1101110110 *)
    0x1BB; (* 0b0110111011 *)
    0x201; (* 0b1000000001 *)
    0x3DC; (* 0b1111011100 *)
    0x1EE; (* 0b0111101110 *)
    0x0F7; (* 0b0011110111 *)
    0x2A7; (* 0b1010100111 *)
    0x38F; (* 0b1110001111 *)
    0x31B  (* 0b1100011011 *) ].

(* src/block_sync.cc:84-127.  Row 25-k belongs to bit k, so the loop over k runs through the
   reversed matrix. *)
Fixpoint syndrome_loop (rows : list N) (k : N) (vec result : N) : N :=
  match rows with
  | [] => result
  | row :: rest =>
    syndrome_loop rest (k + 1) vec (N.lxor result (row * N.land (N.shiftr vec k) 1))
  end.
Definition calculateSyndrome (vec : N) : N := syndrome_loop (rev parity_check_matrix) 0 vec 0.

(* src/block_sync.cc:136-142 *)
Definition offset_words : list (Offset * N) :=
  [ (OffA,      0x0FC)    (* 0b0011111100 *)
  ; (OffB,      0x198)    (* 0b0110011000 *)
  ; (OffC,      0x168)    (* 0b0101101000 *)
  ; (OffCprime, 0x350)    (* 0b1101010000 *)
  ; (OffD,      0x1B4) ]. (* 0b0110110100 *)

(* std::map<std::pair<uint32_t, Offset>, uint32_t> as an association list; insert() keeps an
   existing entry. *)
Definition ErrorTable := list ((N * Offset) * N).
Definition table_find (t : ErrorTable) (syndrome : N) (o : Offset) : option N :=
  match find (fun e => (fst (fst e) =? syndrome) && Offset_eqb (snd (fst e)) o) t with
  | Some e => Some (snd e)
  | None => None
  end.
Definition table_insert (t : ErrorTable) (syndrome : N) (o : Offset) (err : N) : ErrorTable :=
  match table_find t syndrome o with
  | Some _ => t
  | None => t ++ [((syndrome, o), err)]
  end.

(* src/block_sync.cc:131-163 *)
Definition makeErrorLookupTable : ErrorTable :=
  fold_left (fun table offset =>
    fold_left (fun table error_bits =>
      fold_left (fun table shift =>
        let error_vector := N.land (u32 (N.shiftl error_bits shift)) kBlockBitmask in
        let syndrome := calculateSyndrome (N.lxor error_vector (snd offset)) in
        table_insert table syndrome (fst offset) error_vector)
      (nseq 0 26) table)
    [1; 3] table)
  offset_words [].

(* The function-local static error_lookup_table (src/block_sync.cc:167), computed once. *)
Definition error_lookup_table : ErrorTable := Eval vm_compute in makeErrorLookupTable.

(* src/block_sync.cc:166-182; result (succeeded, corrected_bits) *)
Definition correctBurstErrors (raw : N) (expected_offset : Offset) : bool * N :=
  let syndrome := calculateSyndrome raw in
  match table_find error_lookup_table syndrome expected_offset with
  | Some err => (true, N.lxor raw err)
  | None => (false, raw)
  end.

(* src/block_sync.hh:30-35 *)
Record SyncPulse := mkPulse { sp_offset : Offset; sp_bit_position : N }.
Definition SyncPulse_default : SyncPulse := mkPulse OffInvalid 0.

(* src/block_sync.cc:185-194 *)
Definition couldFollow (this other : SyncPulse) : bool :=
  let sync_distance := u32_sub (sp_bit_position this) (sp_bit_position other) in
  (sync_distance mod kBlockLength =? 0) &&
  (sync_distance / kBlockLength <=? 6) &&
  negb (Offset_eqb (sp_offset this) OffInvalid) &&
  negb (Offset_eqb (sp_offset other) OffInvalid) &&
  ((blockNumber_N (getBlockNumberForOffset (sp_offset other)) + sync_distance / kBlockLength) mod 4
     =? blockNumber_N (getBlockNumberForOffset (sp_offset this))).

(* src/block_sync.hh:37-44  SyncPulseBuffer: std::array<SyncPulse, 4> indexed only by loop
   counters below its size; a record of four pulses, p3 being back() *)
Record SyncPulseBuffer := mkPulses { sb_p0 : SyncPulse; sb_p1 : SyncPulse; sb_p2 : SyncPulse; sb_p3 : SyncPulse }.
Definition SyncPulseBuffer_default : SyncPulseBuffer :=
  mkPulses SyncPulse_default SyncPulse_default SyncPulse_default SyncPulse_default.

(* src/block_sync.cc:199-210 *)
Definition sb_push (b : SyncPulseBuffer) (o : Offset) (bitcount : N) : SyncPulseBuffer :=
  mkPulses (sb_p1 b) (sb_p2 b) (sb_p3 b) (mkPulse o bitcount).

(* src/block_sync.cc:213-224; pairs (i_first, i_second) in loop order: (0,1) (0,2) (1,2) *)
Definition isSequenceFound (b : SyncPulseBuffer) : bool :=
  let third := sb_p3 b in
  (couldFollow third (sb_p1 b) && couldFollow (sb_p1 b) (sb_p0 b)) ||
  (couldFollow third (sb_p2 b) && couldFollow (sb_p2 b) (sb_p0 b)) ||
  (couldFollow third (sb_p2 b) && couldFollow (sb_p2 b) (sb_p1 b)).

(* src/util.hh:127-147  RunningSum<int, 50>: only 0 and 1 are ever pushed, so N stands for int *)
Record RunningSum := mkRunningSum { rs_history : list N; rs_pointer : N }.
Definition RunningSum_default : RunningSum := mkRunningSum (repeat 0 50) 0.
(* src/util.hh:133-135 *)
Definition rs_getSum (r : RunningSum) : N := fold_left N.add (rs_history r) 0.
(* src/util.hh:136-139; that pointer_ is always in range is theorem C06_error_window_index_in_range *)
Definition rs_push (r : RunningSum) (number : N) : RunningSum :=
  mkRunningSum (list_set (rs_history r) (N.to_nat (rs_pointer r)) number)
               ((rs_pointer r + 1) mod N.of_nat (length (rs_history r))).
(* src/util.hh:140-142; the pointer is not reset *)
Definition rs_clear (r : RunningSum) : RunningSum :=
  mkRunningSum (repeat 0 (length (rs_history r))) (rs_pointer r).

(* src/block_sync.hh:52-80  BlockStream.  Of options_ only use_fec is read; bler_average_ is unused. *)
Record BlockStream := mkBlockStream {
  bst_bitcount : N;
  bst_num_bits_until_next_block : N;
  bst_input_register : N;
  bst_expected_offset : Offset;
  bst_is_in_sync : bool;
  bst_error_sum50 : RunningSum;
  bst_use_fec : bool;
  bst_current_group : Group;
  bst_ready_group : Group;
  bst_has_group_ready : bool;
  bst_num_bits_since_sync_lost : N;
  bst_sync_buffer : SyncPulseBuffer
}.

(* src/block_sync.hh:67-79 and BlockStream::init, src/block_sync.cc:226-228 *)
Definition BlockStream_init (use_fec : bool) : BlockStream :=
  mkBlockStream 0 1 0 OffA false RunningSum_default use_fec Group_default Group_default false 0
                SyncPulseBuffer_default.

Definition bst_set_sum (s : BlockStream) (r : RunningSum) : BlockStream :=
  mkBlockStream (bst_bitcount s) (bst_num_bits_until_next_block s) (bst_input_register s)
    (bst_expected_offset s) (bst_is_in_sync s) r (bst_use_fec s) (bst_current_group s)
    (bst_ready_group s) (bst_has_group_ready s) (bst_num_bits_since_sync_lost s) (bst_sync_buffer s).
Definition bst_set_expected (s : BlockStream) (o : Offset) : BlockStream :=
  mkBlockStream (bst_bitcount s) (bst_num_bits_until_next_block s) (bst_input_register s)
    o (bst_is_in_sync s) (bst_error_sum50 s) (bst_use_fec s) (bst_current_group s)
    (bst_ready_group s) (bst_has_group_ready s) (bst_num_bits_since_sync_lost s) (bst_sync_buffer s).
Definition bst_set_group (s : BlockStream) (g : Group) : BlockStream :=
  mkBlockStream (bst_bitcount s) (bst_num_bits_until_next_block s) (bst_input_register s)
    (bst_expected_offset s) (bst_is_in_sync s) (bst_error_sum50 s) (bst_use_fec s) g
    (bst_ready_group s) (bst_has_group_ready s) (bst_num_bits_since_sync_lost s) (bst_sync_buffer s).
Definition bst_set_until (s : BlockStream) (n : N) : BlockStream :=
  mkBlockStream (bst_bitcount s) n (bst_input_register s)
    (bst_expected_offset s) (bst_is_in_sync s) (bst_error_sum50 s) (bst_use_fec s)
    (bst_current_group s) (bst_ready_group s) (bst_has_group_ready s)
    (bst_num_bits_since_sync_lost s) (bst_sync_buffer s).

(* src/block_sync.cc:231-247 *)
Definition acquireSync (s : BlockStream) (offset : Offset) : BlockStream :=
  if bst_is_in_sync s then s
  else
    let n := u32 (bst_num_bits_since_sync_lost s + 1) in
    if negb (Offset_eqb offset OffInvalid) then
      let sb := sb_push (bst_sync_buffer s) offset (bst_bitcount s) in
      if isSequenceFound sb then
        mkBlockStream (bst_bitcount s) (bst_num_bits_until_next_block s) (bst_input_register s)
          offset true (bst_error_sum50 s) (bst_use_fec s) Group_default
          (bst_ready_group s) (bst_has_group_ready s) 0 sb
      else
        mkBlockStream (bst_bitcount s) (bst_num_bits_until_next_block s) (bst_input_register s)
          (bst_expected_offset s) false (bst_error_sum50 s) (bst_use_fec s) (bst_current_group s)
          (bst_ready_group s) (bst_has_group_ready s) n sb
    else
      mkBlockStream (bst_bitcount s) (bst_num_bits_until_next_block s) (bst_input_register s)
        (bst_expected_offset s) false (bst_error_sum50 s) (bst_use_fec s) (bst_current_group s)
        (bst_ready_group s) (bst_has_group_ready s) n (bst_sync_buffer s).

(* src/block_sync.cc:308-312 *)
Definition handleNewlyReceivedGroup (s : BlockStream) : BlockStream :=
  mkBlockStream (bst_bitcount s) (bst_num_bits_until_next_block s) (bst_input_register s)
    (bst_expected_offset s) (bst_is_in_sync s) (bst_error_sum50 s) (bst_use_fec s) Group_default
    (bst_current_group s) true (bst_num_bits_since_sync_lost s) (bst_sync_buffer s).

(* src/block_sync.cc:263-305 *)
Definition findBlockInInputRegister (s0 : BlockStream) : BlockStream :=
  let raw := N.land (bst_input_register s0) kBlockBitmask in
  let offset := getOffsetForSyndrome (calculateSyndrome raw) in
  let s1 := acquireSync s0 offset in
  if bst_is_in_sync s1 then
    let s2 :=
      if Offset_eqb (bst_expected_offset s1) OffC && Offset_eqb offset OffCprime
      then bst_set_expected s1 OffCprime else s1 in
    let expected := bst_expected_offset s2 in
    let had_errors := negb (Offset_eqb offset expected) in
    let s3 := bst_set_sum s2 (rs_push (bst_error_sum50 s2) (if had_errors then 1 else 0)) in
    if kMaxErrorsToleratedOver50Blocks <? rs_getSum (bst_error_sum50 s3) then
      mkBlockStream (bst_bitcount s3) (bst_num_bits_until_next_block s3) (bst_input_register s3)
        (bst_expected_offset s3) false (rs_clear (bst_error_sum50 s3)) (bst_use_fec s3)
        (bst_current_group s3) (bst_ready_group s3) (bst_has_group_ready s3)
        (bst_num_bits_since_sync_lost s3) (bst_sync_buffer s3)
    else
      let data0 := u16 (N.shiftr raw kCheckwordLength) in
      let '(data, offset') :=
        if had_errors && bst_use_fec s3 then
          let '(succeeded, corrected_bits) := correctBurstErrors raw expected in
          if succeeded then (u16 (N.shiftr corrected_bits kCheckwordLength), expected)
          else (data0, offset)
        else (data0, offset) in
      let s4 :=
        if Offset_eqb offset' expected then
          bst_set_group s3 (g_setBlock (bst_current_group s3) (getBlockNumberForOffset expected)
                              (mkBlock raw data true had_errors offset'))
        else s3 in
      let s5 := bst_set_expected s4 (getNextOffsetFor expected) in
      if Offset_eqb (bst_expected_offset s5) OffA then handleNewlyReceivedGroup s5 else s5
  else s1.

(* src/block_sync.cc:250-260 *)
Definition pushBit (s : BlockStream) (bit : bool) : BlockStream :=
  let s1 :=
    mkBlockStream (u32 (bst_bitcount s + 1)) (u32_sub (bst_num_bits_until_next_block s) 1)
      (u32 (N.shiftl (bst_input_register s) 1 + (if bit then 1 else 0)))
      (bst_expected_offset s) (bst_is_in_sync s) (bst_error_sum50 s) (bst_use_fec s)
      (bst_current_group s) (bst_ready_group s) (bst_has_group_ready s)
      (bst_num_bits_since_sync_lost s) (bst_sync_buffer s) in
  if bst_num_bits_until_next_block s1 =? 0 then
    let s2 := findBlockInInputRegister s1 in
    bst_set_until s2 (if bst_is_in_sync s2 then kBlockLength else 1)
  else s1.

(* src/block_sync.cc:318-321  popGroup: returns ready_group_ and clears the flag *)
Definition popGroup (s : BlockStream) : BlockStream :=
  mkBlockStream (bst_bitcount s) (bst_num_bits_until_next_block s) (bst_input_register s)
    (bst_expected_offset s) (bst_is_in_sync s) (bst_error_sum50 s) (bst_use_fec s)
    (bst_current_group s) (bst_ready_group s) false
    (bst_num_bits_since_sync_lost s) (bst_sync_buffer s).

(* The way a BlockStream is driven by Channel::processBit / processBits
   (src/channel.cc:64-69, 73-77): push a bit, and if a group is ready, pop it. *)
Definition bst_step (s : BlockStream) (bit : bool) : BlockStream * option Group :=
  let s1 := pushBit s bit in
  if bst_has_group_ready s1 then (popGroup s1, Some (bst_ready_group s1)) else (s1, None).

Fixpoint bst_run (s : BlockStream) (bits : list bool) : BlockStream * list Group :=
  match bits with
  | [] => (s, [])
  | b :: r =>
    let '(s1, og) := bst_step s b in
    let '(s2, gs) := bst_run s1 r in
    (s2, match og with Some g => g :: gs | None => gs end)
  end.
