(* src/base64.hh and src/rft.hh: file transfer. *)
From Verif.Model Require Import Base Util.

(* src/base64.hh:10-11 *)
Definition base64_table : bytes :=
  bs "ABCDEFGHIJKLMNOPQRSTUVWXYZabcdefghijklmnopqrstuvwxyz0123456789+/".

Definition b64_char (v : N) : N := nth (N.to_nat (N.land v 0x3F)) base64_table 0.

(* src/base64.hh:24-49: one iteration of the loop per list prefix of (up to) three bytes *)
Fixpoint asBase64 (data : bytes) : bytes :=
  match data with
  | [] => []
  | [a] =>
      let chunk := N.shiftl a 16 in
      [b64_char (N.shiftr chunk 18); b64_char (N.shiftr chunk 12); 61; 61]
  | [a; b] =>
      let chunk := N.lor (N.shiftl a 16) (N.shiftl b 8) in
      [b64_char (N.shiftr chunk 18); b64_char (N.shiftr chunk 12); b64_char (N.shiftr chunk 6); 61]
  | a :: b :: c :: rest =>
      let chunk := N.lor (N.lor (N.shiftl a 16) (N.shiftl b 8)) c in
      b64_char (N.shiftr chunk 18) :: b64_char (N.shiftr chunk 12) ::
      b64_char (N.shiftr chunk 6) :: b64_char chunk :: asBase64 rest
  end.

(* src/rft.hh:22-59 *)
Record ChunkCRC := mkChunkCRC { crc_mode : N; crc_address_raw : N; crc_crc : N; crc_received : bool }.

Definition kCRCModeEntireFile : N := 0.
Definition kCRCModeAuto : N := 7.

(* src/rft.hh:29-40 *)
Definition getActualMode (c : ChunkCRC) (file_size_bytes : N) : N :=
  if crc_mode c =? kCRCModeAuto then
    if file_size_bytes <=? 40960 then 1
    else if file_size_bytes <=? 81920 then 2
    else 3
  else crc_mode c.

(* src/rft.hh:43-49 *)
Definition getChunkLength (c : ChunkCRC) (file_size_bytes : N) : N :=
  if crc_mode c =? kCRCModeEntireFile then file_size_bytes
  else 5 * N.shiftl 8 (getActualMode c file_size_bytes).

(* src/rft.hh:52-58 *)
Definition getByteAddress (c : ChunkCRC) (file_size_bytes : N) : N :=
  if crc_mode c =? kCRCModeEntireFile then 0
  else u32 (crc_address_raw c * getChunkLength c file_size_bytes).

(* src/rft.hh:70-76: one round of the CRC loop, on uint32_t *)
Definition crc_step (crc : N) (byte : N) : N :=
  let crc := u32 (N.lor (u8 (N.shiftr crc 8)) (N.shiftl crc 8)) in
  let crc := N.lxor crc byte in
  let crc := N.lxor crc (N.shiftr (N.land crc 0xFF) 4) in
  let crc := N.lxor crc (u32 (N.shiftl (u32 (N.shiftl crc 8)) 4)) in
  N.lxor crc (N.shiftl (N.shiftl (N.land crc 0xFF) 4) 1).

(* src/rft.hh:62-78: [data] are the bytes data[address .. address+length-1] *)
Definition crc16_ccitt (data : bytes) : N :=
  match data with
  | [] => 0
  | _ => N.land (N.lxor (fold_left crc_step data 0xFFFF) 0xFFFF) 0xFFFF
  end.

Definition kMaxNumSegments : N := 32768.
Definition kMaxNumCRCs : N := 512.

(* src/rft.hh:15-17, 80-177.  The two vectors data_ and received_ are resized together to
   kMaxNumSegments by the first receive() and stay that long; they are modelled by [rft_alloc]
   (has receive() been called) and a finite map from segment address to its five bytes: a received
   address is one that is in [rft_data] and not yet cleared ([rft_recv]).  Data of addresses never
   written is zero (value-initialised).  crc_chunks_ is likewise a map; only whether its entries
   exist matters, nothing reads them in the program. *)
Record RFTFile := mkRFT {
  rft_alloc : bool;
  rft_data : list (N * list N);       (* newest first; data survives clear() *)
  rft_recv : list N;                  (* addresses with received_[a] = true *)
  rft_crcs : list (N * ChunkCRC);
  rft_expected_size : N;
  rft_is_printed : bool;
  rft_expect_crc : bool;
  rft_prev_toggle : N
}.

Definition rft_init : RFTFile := mkRFT false [] [] [] 0 false false 0.

(* src/rft.hh:85-89 *)
Definition rft_setSize (f : RFTFile) (size : N) : RFTFile :=
  if size <=? kMaxNumSegments * 5 then
    mkRFT (rft_alloc f) (rft_data f) (rft_recv f) (rft_crcs f) size (rft_is_printed f)
      (rft_expect_crc f) (rft_prev_toggle f)
  else f.

(* src/rft.hh:91-97 *)
Definition rft_clear (f : RFTFile) : RFTFile :=
  mkRFT (rft_alloc f) (rft_data f) [] [] (rft_expected_size f) false
    (rft_expect_crc f) (rft_prev_toggle f).

(* src/rft.hh:100-102 *)
Definition rft_setCRCFlag (f : RFTFile) (flag : bool) : RFTFile :=
  mkRFT (rft_alloc f) (rft_data f) (rft_recv f) (rft_crcs f) (rft_expected_size f) (rft_is_printed f)
    flag (rft_prev_toggle f).

(* src/rft.hh:108-113: the assert is compiled out in release builds; an address past the vector
   would be undefined behaviour *)
Definition rft_receiveCRC (f : RFTFile) (c : ChunkCRC) : res RFTFile :=
  if crc_address_raw c <? kMaxNumCRCs then
    Ok (mkRFT (rft_alloc f) (rft_data f) (rft_recv f)
          ((crc_address_raw c, mkChunkCRC (crc_mode c) (crc_address_raw c) (crc_crc c) true) :: rft_crcs f)
          (rft_expected_size f) (rft_is_printed f) (rft_expect_crc f) (rft_prev_toggle f))
  else UB "crc_chunks_ index out of range".

(* src/rft.hh:118-145 *)
Definition rft_receive (f : RFTFile) (toggle segment_address block2 block3 block4 : N) : RFTFile :=
  let f := if negb (toggle =? rft_prev_toggle f) then rft_clear f else f in
  let f := mkRFT true (rft_data f) (rft_recv f) (rft_crcs f) (rft_expected_size f)
             (rft_is_printed f) (rft_expect_crc f) toggle in
  if segment_address <? kMaxNumSegments then
    let segment := [getBits 8 block2 0; getBits 8 block3 8; getBits 8 block3 0;
                    getBits 8 block4 8; getBits 8 block4 0] in
    mkRFT true ((segment_address, segment) :: rft_data f) (segment_address :: rft_recv f)
      (rft_crcs f) (rft_expected_size f) (rft_is_printed f) (rft_expect_crc f) toggle
  else f.

(* received_[i] *)
Definition rft_received (f : RFTFile) (i : N) : bool := existsb (N.eqb i) (rft_recv f).

(* data_[i].bytes *)
Fixpoint assoc {A : Type} (k : N) (l : list (N * A)) : option A :=
  match l with
  | [] => None
  | (k', v) :: r => if k =? k' then Some v else assoc k r
  end.

Definition rft_segment (f : RFTFile) (i : N) : list N :=
  match assoc i (rft_data f) with
  | Some s => s
  | None => [0; 0; 0; 0; 0]
  end.

(* src/rft.hh:147-159; an index past the vector would be undefined behaviour, which the bound in
   setSize excludes *)
Definition rft_hasNewCompleteFile (f : RFTFile) : bool :=
  if rft_is_printed f || (rft_expected_size f =? 0) || negb (rft_alloc f) then false
  else
    let expected_num_segments := divideRoundingUp (rft_expected_size f) 5 in
    forallb (rft_received f) (nseq 0 (N.to_nat expected_num_segments)).

(* The first [size] bytes of data_ *)
Definition rft_contents (f : RFTFile) (size : N) : bytes :=
  firstn (N.to_nat size)
    (concat (map (rft_segment f) (nseq 0 (N.to_nat (divideRoundingUp size 5))))).

(* src/rft.hh:162-165.  [data_] is a non-null buffer of kMaxNumSegments segments once receive() was
   called, which hasNewCompleteFile has checked. *)
Definition rft_getBase64Data (f : RFTFile) : bytes * RFTFile :=
  (asBase64 (rft_contents f (rft_expected_size f)),
   mkRFT (rft_alloc f) (rft_data f) (rft_recv f) (rft_crcs f) (rft_expected_size f) true
     (rft_expect_crc f) (rft_prev_toggle f)).
