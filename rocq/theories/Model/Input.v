(* src/io/input.hh and src/io/input.cc: the input readers. *)
From Verif.Model Require Import Base Util Float Group Options.

(* Standard input as seen by repeated std::getline: the pieces between line ends.  There is always
   at least one piece; reading the last one sets eof (src/io/input.cc:193-195, 257-259).  An input
   ending in a line end has an empty last piece. *)
Fixpoint split_lines (s : bytes) : list bytes :=
  match s with
  | [] => [[]]
  | c :: r =>
      if c =? 10 then [] :: split_lines r
      else match split_lines r with
           | l :: ls => (c :: l) :: ls
           | [] => [[c]]
           end
  end.

(* src/io/input.cc:163-175  AsciiBitReader::readBit on the remaining bytes of stdin.  Result: the
   bit, the rest, whether the end was reached, and the bytes echoed by --feed-through (putchar(EOF)
   writes byte 255). *)
Fixpoint readBit (s : bytes) : bool * bytes * bool * bytes :=
  match s with
  | [] => (false, [], true, [255])
  | c :: r =>
      if c =? 48 then (false, r, false, [c])
      else if c =? 49 then (true, r, false, [c])
      else let '(b, r', e, echo) := readBit r in (b, r', e, c :: echo)
  end.

(* The loop src/redsea.cc:172-174: every bit handed to the channel.  Each call of readBit consumes
   at least one byte or reaches the end. *)
Fixpoint readBits (fuel : nat) (s : bytes) : list bool :=
  match fuel with
  | O => []
  | S f => let '(b, r, e, _) := readBit s in
           b :: (if e : bool then [] else readBits f r)
  end.
Definition ascii_bits (s : bytes) : list bool := readBits (S (length s)) s.

(* std::stoi(single, nullptr, 16) for one character; None is the exception *)
Definition hexval (c : N) : option N :=
  if (48 <=? c) && (c <=? 57) then Some (c - 48)
  else if (65 <=? c) && (c <=? 70) then Some (c - 55)
  else if (97 <=? c) && (c <=? 102) then Some (c - 87)
  else None.

(* src/io/input.cc:212-236: the while loop for one block.  Result: data, block_still_valid, rest. *)
Fixpoint read_nibbles (line : bytes) (left : nat) (data : N) (valid : bool) : N * bool * bytes :=
  match left with
  | O => (data, valid, line)
  | S k =>
      match line with
      | [] => (data, valid, [])
      | c :: r =>
          if c =? 32 then read_nibbles r left data valid
          else match hexval c with
               | Some v => read_nibbles r k (u16 (N.shiftl data 4 + v)) valid
               | None => read_nibbles r k data false
               end
      end
  end.

Definition plain_block (data : N) (received : bool) : Block :=
  mkBlock 0 data received false OffInvalid.

(* src/io/input.cc:209-245: one block of the line *)
Definition read_hex_block (n : blockNumber) (gl : Group * bytes) : Group * bytes :=
  let '(g, line) := gl in
  let '(data, valid, rest) := read_nibbles line 4 0 true in
  (if valid then g_setBlock g n (plain_block data true) else g, rest).

(* src/io/input.cc:201-207: the stream number and the rest of the line *)
Definition hex_stream (line : bytes) : N * bytes :=
  match line with
  | 35 :: 83 :: d :: 32 :: r =>
      if (20 <=? N.of_nat (length line)) && ((d =? 49) || (d =? 50) || (d =? 51))
      then (d - 48, r) else (0, line)
  | _ => (0, line)
  end.

Definition parse_hex_line (line : bytes) (g : Group) : Group :=
  let '(strm, line) := hex_stream line in
  let g := g_setDataStream g strm in
  fst (read_hex_block BLOCK4 (read_hex_block BLOCK3 (read_hex_block BLOCK2 (read_hex_block BLOCK1 (g, line))))).

(* src/io/input.cc:187-250.  Result: the group and the remaining input. *)
Fixpoint readHexGroup_loop (lines : list bytes) (g : Group) : Group * list bytes :=
  match lines with
  | [] => (g, [])
  | line :: rest =>
      if N.of_nat (length line) <? 16 then readHexGroup_loop rest g
      else (parse_hex_line line g, rest)
  end.
Definition readHexGroup (o : Options) (now : Z) (lines : list bytes) : Group * list bytes :=
  let '(g, rest) := readHexGroup_loop lines (g_disableOffsets Group_default) in
  (if o_timestamp o then g_setTime g now else g, rest).

(* src/redsea.cc:184-187: all groups read from the input; [clock n] is the n-th clock reading *)
Fixpoint hex_groups (fuel : nat) (o : Options) (clock : nat -> Z) (lines : list bytes) : list Group :=
  match fuel, lines with
  | S f, _ :: _ =>
      let '(g, rest) := readHexGroup o (clock O) lines in
      g :: hex_groups f o (fun n => clock (S n)) rest
  | _, _ => []
  end.
Definition read_hex_input (o : Options) (clock : nat -> Z) (s : bytes) : list Group :=
  hex_groups (length (split_lines s)) o clock (split_lines s).

(* isspace in the "C" locale *)
Definition isspace (c : N) : bool := ((9 <=? c) && (c <=? 13)) || (c =? 32).
Fixpoint skip_space (s : bytes) : bytes :=
  match s with
  | c :: r => if isspace c then skip_space r else s
  | [] => []
  end.

(* The longest run of hexadecimal digits: its value and length *)
Fixpoint hex_run (s : bytes) (acc : N) (n : N) : N * N :=
  match s with
  | c :: r => match hexval c with Some v => hex_run r (acc * 16 + v) (n + 1) | None => (acc, n) end
  | [] => (acc, n)
  end.

(* std::stol(s, nullptr, 16): white space, sign, optional 0x, digits; None is an exception
   (no digits, or outside the range of a 64-bit long) *)
Definition stol16 (s : bytes) : option Z :=
  let s := skip_space s in
  let '(neg, s) := match s with
                   | 45 :: r => (true, r)
                   | 43 :: r => (false, r)
                   | _ => (false, s)
                   end in
  let s := match s with
           | 48 :: x :: d :: r =>
               if ((x =? 120) || (x =? 88)) && (match hexval d with Some _ => true | None => false end)
               then d :: r else s
           | _ => s
           end in
  let '(v, n) := hex_run s 0 0 in
  if n =? 0 then None
  else
    let z := if neg : bool then (- Z.of_N v)%Z else Z.of_N v in
    if (- 0x8000000000000000 <=? z)%Z && (z <=? 0x7FFFFFFFFFFFFFFF)%Z then Some z else None.

Definition z_u16 (z : Z) : N := Z.to_N (z mod 0x10000).
Definition z_u32 (z : Z) : N := Z.to_N (z mod 0x100000000).

(* src/io/input.cc:280-297: an 'R' line of at least 15 characters; None is the exception *)
Definition parse_R (line : bytes) (g : Group) : option Group :=
  let field a n := stol16 (firstn n (skipn a line)) in
  match field 1%nat 4%nat, field 5%nat 4%nat, field 9%nat 4%nat, field 13%nat 2%nat with
  | Some b2, Some b3, Some b4, Some e =>
      let e := z_u32 e in
      let blk d shift := plain_block (z_u16 d) (N.land (N.shiftr e shift) 0xFF =? 0) in
      Some (g_setBlock (g_setBlock (g_setBlock g BLOCK2 (blk b2 4)) BLOCK3 (blk b3 2)) BLOCK4 (blk b4 0))
  | _, _, _, _ => None
  end.

(* src/io/input.cc:253-303 *)
Fixpoint readTEF_loop (lines : list bytes) (g : Group) : Group * list bytes :=
  match lines with
  | [] => (g, [])
  | line :: rest =>
      match line with
      | 80 :: r =>
          match stol16 r with
          | Some v => readTEF_loop rest (g_setBlock g BLOCK1 (plain_block (z_u16 v) true))
          | None => readTEF_loop rest g
          end
      | 82 :: _ =>
          if 15 <=? N.of_nat (length line) then
            match parse_R line g with
            | Some g' => (g', rest)
            | None => (g, rest)
            end
          else readTEF_loop rest g
      | _ => readTEF_loop rest g
      end
  end.
Definition readTEFGroup (lines : list bytes) : Group * list bytes :=
  readTEF_loop lines (g_disableOffsets Group_default).

(* src/redsea.cc:196-198 *)
Fixpoint tef_groups (fuel : nat) (lines : list bytes) : list Group :=
  match fuel, lines with
  | S f, _ :: _ => let '(g, rest) := readTEFGroup lines in g :: tef_groups f rest
  | _, _ => []
  end.
Definition read_tef_input (s : bytes) : list Group := tef_groups (length (split_lines s)) (split_lines s).

(* src/io/input.hh:36-40 *)
Definition kInputChunkSize : N := 8192.
Definition kBufferSize : N := 10945.       (* size_t(8192 * 1.3359375f) + 1 *)

(* src/io/input.cc:43-97, 106-148  MPXReader, reading from a sequence of samples of type A.  The
   two buffers are lists of their used parts. *)
Record MPXReader (A : Type) := mkMPXReader {
  mr_num_channels : N;
  mr_chunk_size : N;
  mr_is_eof : bool;
  mr_buffer : list A;
  mr_buffer_time : Z;
  mr_singlechan_time : Z;
  mr_input : list A          (* samples not read yet *)
}.
Arguments mkMPXReader {A}.
Arguments mr_num_channels {A}.
Arguments mr_chunk_size {A}.
Arguments mr_is_eof {A}.
Arguments mr_buffer {A}.
Arguments mr_buffer_time {A}.
Arguments mr_singlechan_time {A}.
Arguments mr_input {A}.

(* src/io/input.cc:92-95 (a file that was opened, with an accepted sample rate) *)
Definition MPXReader_init {A : Type} (num_channels : N) (input : list A) : MPXReader A :=
  mkMPXReader num_channels ((kInputChunkSize / num_channels) * num_channels)
    (kBufferSize <=? num_channels) [] 0 0 input.

(* src/io/input.cc:115-127 *)
Definition fillBuffer {A : Type} (now : Z) (r : MPXReader A) : MPXReader A :=
  let data := firstn (N.to_nat (mr_chunk_size r)) (mr_input r) in
  mkMPXReader (mr_num_channels r) (mr_chunk_size r)
    (mr_is_eof r || (N.of_nat (length data) <? mr_chunk_size r))
    data now (mr_singlechan_time r)
    (skipn (N.to_nat (mr_chunk_size r)) (mr_input r)).

(* src/io/input.cc:141-144: elements i * num_channels + channel for i = 0 .. n-1; reading past the
   array is undefined behaviour *)
Fixpoint deinterleave {A : Type} (n : nat) (k i : N) (buf : list A) : res (list A) :=
  match n with
  | O => Ok []
  | S m => x <- arr_get buf i ;; l <- deinterleave m k (i + k) buf ;; Ok (x :: l)
  end.

(* src/io/input.cc:130-148: the samples and their time stamp.  Nothing ever assigns
   buffer_singlechan_.time_received. *)
Definition readChunk {A : Type} (r : MPXReader A) (channel : N) : res (list A * Z) :=
  if mr_num_channels r <=? channel then Throw "logic_error"
  else if mr_is_eof r then Ok (mr_buffer r, mr_buffer_time r)
  else if mr_num_channels r =? 1 then Ok (mr_buffer r, mr_buffer_time r)
  else
    l <- deinterleave (N.to_nat (N.of_nat (length (mr_buffer r)) / mr_num_channels r))
           (mr_num_channels r) channel (mr_buffer r) ;;
    Ok (l, mr_singlechan_time r).
