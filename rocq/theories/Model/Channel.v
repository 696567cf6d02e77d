(* src/channel.hh and src/channel.cc: one receiving channel; src/io/output.hh. *)
From Verif.Model Require Import Base Util Float Group BlockSync Options Json Station.

(* src/channel.hh:36-77 *)
Inductive PiResult := ChangeConfirmed | NoChange | SpuriousChange.

Record CachedPI := mkCachedPI {
  pi_confirmed : N;
  pi_prev1 : N;
  pi_prev2 : N;
  pi_has_previous : bool
}.

(* src/channel.hh:67-70 *)
Definition CachedPI_reset : CachedPI := mkCachedPI 0 0 0 false.

(* src/channel.hh:43-63 *)
Definition pi_update (c : CachedPI) (pi : N) : CachedPI * PiResult :=
  let three := pi_has_previous c && (pi_prev1 c =? pi_prev2 c) && (pi =? pi_prev1 c) in
  let status := if three then (if pi =? pi_confirmed c then NoChange else ChangeConfirmed)
                else SpuriousChange in
  let confirmed := if three then pi else pi_confirmed c in
  if pi_has_previous c && (negb (pi =? confirmed) && negb (pi_prev1 c =? confirmed) && negb (pi =? pi_prev1 c))
  then (mkCachedPI 0 pi 0 false, status)
  else (mkCachedPI confirmed pi (pi_prev1 c) true, status).

(* src/util.hh:149-170  RunningAverage<float, kNumBlerAverageGroups> *)
Record RunningAverage := mkRunningAverage {
  ra_history : list spec_float;
  ra_sum : spec_float;
  ra_ptr : N
}.
Definition kNumBlerAverageGroups : N := 12.        (* src/constants.hh:28 *)
Definition RunningAverage_init : RunningAverage :=
  mkRunningAverage (repeat (S754_zero false) (N.to_nat kNumBlerAverageGroups)) (S754_zero false) 0.
Definition ra_push (r : RunningAverage) (value : spec_float) : RunningAverage :=
  let sum := f32_sub (ra_sum r) (nth (N.to_nat (ra_ptr r)) (ra_history r) (S754_zero false)) in
  mkRunningAverage (list_set (ra_history r) (N.to_nat (ra_ptr r)) value) (f32_add sum value)
    ((ra_ptr r + 1) mod kNumBlerAverageGroups).
Definition ra_getAverage (r : RunningAverage) : spec_float :=
  f32_div (ra_sum r) (f32_of_Z (Z.of_N kNumBlerAverageGroups)).

(* src/channel.hh:79-99.  The four block streams are a list. *)
Record Channel := mkChannel {
  ch_which_channel : N;
  ch_cached_pi : CachedPI;
  ch_block_stream : list BlockStream;
  ch_station : Station;
  ch_bler_average : RunningAverage;
  ch_last_group_rx_time : Z
}.

(* src/channel.cc:41-49 *)
Definition Channel_new (o : Options) (which_channel : N) : Channel :=
  mkChannel which_channel CachedPI_reset (repeat (BlockStream_init (o_use_fec o)) 4)
    (Station_new which_channel) RunningAverage_init 0.

(* src/channel.cc:52-60 *)
Definition Channel_new_pi (o : Options) (pi : N) : Channel :=
  mkChannel 0 (fst (pi_update (fst (pi_update CachedPI_reset pi)) pi))
    (repeat (BlockStream_init (o_use_fec o)) 4)
    (Station_new_pi 0 pi) RunningAverage_init 0.

Definition ch_set_stream (c : Channel) (i : N) (b : BlockStream) : Channel :=
  mkChannel (ch_which_channel c) (ch_cached_pi c) (list_set (ch_block_stream c) (N.to_nat i) b)
    (ch_station c) (ch_bler_average c) (ch_last_group_rx_time c).
Definition ch_set_time (c : Channel) (t : Z) : Channel :=
  mkChannel (ch_which_channel c) (ch_cached_pi c) (ch_block_stream c) (ch_station c)
    (ch_bler_average c) t.

(* src/io/output.hh:12-21: the line printed (without the line end), if any *)
Definition printAsHex (env : Env) (o : Options) (g : Group) : option bytes :=
  if g_isEmpty g then None
  else Some ((if 0 <? g_data_stream g then bs "#S" ++ dec_string (g_data_stream g) ++ bs " " else []) ++
             g_printHex g ++
             (if o_timestamp o
              then [32] ++ getTimePointString env (g_time_received g) (o_time_format o) else [])).

(* src/channel.cc:101-144.  [now] is the value std::chrono::system_clock::now() returns if it is
   called.  Result: the new state and the line printed, if any. *)
Definition processGroup (env : Env) (o : Options) (now : Z) (c : Channel) (g : Group) (which_stream : N)
    : res (Channel * option bytes) :=
  let '(g, time) :=
    if o_timestamp o && negb (g_has_time g) then
      (g_setTime g (if (now <? ch_last_group_rx_time c)%Z then ch_last_group_rx_time c else now), now)
    else (g, ch_last_group_rx_time c) in
  let '(g, avg) :=
    if o_bler o then
      let avg := ra_push (ch_bler_average c)
                   (f32_div (f32_of_Z (Z.of_N (g_getNumErrors g))) (f32_of_Z 4)) in
      (g_setAverageBLER g (f32_mul (f32_of_Z 100) (ra_getAverage avg)), avg)
    else (g, ch_bler_average c) in
  let g := if which_stream =? 0 then g else g_setVersionC g in
  let g := g_setDataStream g which_stream in
  let '(cached, station) :=
    if g_hasPI g then
      let '(cached, status) := pi_update (ch_cached_pi c) (g_getPI g) in
      (cached, match status with
               | ChangeConfirmed => Station_new_pi (ch_which_channel c) (pi_confirmed cached)
               | _ => ch_station c
               end)
    else (ch_cached_pi c, ch_station c) in
  let next station := mkChannel (ch_which_channel c) cached (ch_block_stream c) station avg time in
  match o_output_type o with
  | OutHex => Ok (next station, printAsHex env o g)
  | OutJSON => '(station, line) <- updateAndPrint env o station g ;; Ok (next station, line)
  end.

(* src/channel.cc:64-69; block_stream_ has four elements *)
Definition processBit (env : Env) (o : Options) (now : Z) (c : Channel) (bit : bool) (which_stream : N)
    : res (Channel * option bytes) :=
  s <- arr_get (ch_block_stream c) which_stream ;;
  let '(s, og) := bst_step s bit in
  let c := ch_set_stream c which_stream s in
  match og with
  | Some g => processGroup env o now c g which_stream
  | None => Ok (c, None)
  end.

Definition f64_1187_5 : spec_float := S754_finite false 5222680231936000 (-42).

(* src/channel.cc:80-83: milliseconds before the end of the buffer.  (The conversion to int
   overflows only for buffers of more than 2^31 milliseconds, which a chunk never holds.) *)
Definition bit_age_ms (n : N) : res Z :=
  sf_trunc (f64_mul (f64_div (f64_of_Z (Z.of_N n)) f64_1187_5) (f64_of_Z 1000)).

(* src/channel.cc:72-97: the bits of the stream from index i_bit on; one element of the output per
   group *)
Fixpoint processBits_loop (env : Env) (o : Options) (time_received : Z) (now : Z) (which_stream : N)
    (bits : list bool) (c : Channel) : res (Channel * list (option bytes)) :=
  match bits with
  | [] => Ok (c, [])
  | b :: r =>
      s <- arr_get (ch_block_stream c) which_stream ;;
      let '(s, og) := bst_step s b in
      let c := ch_set_stream c which_stream s in
      '(c, out) <-
        (match og with
         | None => Ok (c, [])
         | Some g =>
             age <- bit_age_ms (N.of_nat (length r)) ;;
             let t := (time_received - age * 1000000)%Z in
             let t := if (t <? ch_last_group_rx_time c)%Z then ch_last_group_rx_time c else t in
             '(c, line) <- processGroup env o now c (g_setTime g t) which_stream ;;
             Ok (ch_set_time c t, [line])
         end) ;;
      '(c, out') <- processBits_loop env o time_received now which_stream r c ;;
      Ok (c, out ++ out')
  end.
Definition processBits (env : Env) (o : Options) (c : Channel) (time_received now : Z)
    (bits : list bool) (which_stream : N) : res (Channel * list (option bytes)) :=
  processBits_loop env o time_received now which_stream bits c.

(* src/channel.cc:147-153; flushCurrentGroup (src/block_sync.cc:323-325) returns current_group_ *)
Fixpoint flush_loop (env : Env) (o : Options) (now : Z) (streams : list N) (c : Channel)
    : res (Channel * list (option bytes)) :=
  match streams with
  | [] => Ok (c, [])
  | i :: r =>
      s <- arr_get (ch_block_stream c) i ;;
      '(c, out) <- (if g_isEmpty (bst_current_group s) then Ok (c, [])
                    else '(c, line) <- processGroup env o now c (bst_current_group s) i ;;
                         Ok (c, [line])) ;;
      '(c, out') <- flush_loop env o now r c ;;
      Ok (c, out ++ out')
  end.
Definition flush (env : Env) (o : Options) (now : Z) (c : Channel)
    : res (Channel * list (option bytes)) := flush_loop env o now [1; 2; 3] c.

(* src/channel.cc:160-162 *)
Definition resetPI (c : Channel) : Channel :=
  mkChannel (ch_which_channel c) CachedPI_reset (ch_block_stream c) (ch_station c)
    (ch_bler_average c) (ch_last_group_rx_time c).

(* src/channel.cc:156-158 *)
Definition getSecondsSinceCarrierLost (c : Channel) : res spec_float :=
  s <- arr_get (ch_block_stream c) 0 ;;
  Ok (f32_div (f32_of_Z (Z.of_N (bst_num_bits_since_sync_lost s))) (S754_finite false 9728000 (-13))).

(* A channel fed whole groups with their clock readings (the hex and TEF inputs drive it so);
   one output element per group. *)
Fixpoint run_groups (env : Env) (o : Options) (c : Channel) (gs : list (Z * Group * N))
    : res (Channel * list (option bytes)) :=
  match gs with
  | [] => Ok (c, [])
  | (now, g, strm) :: r =>
      '(c, line) <- processGroup env o now c g strm ;;
      '(c, out) <- run_groups env o c r ;;
      Ok (c, line :: out)
  end.

(* A channel fed single bits with their clock readings (src/redsea.cc:172-174). *)
Fixpoint run_bits (env : Env) (o : Options) (c : Channel) (strm : N) (bits : list (Z * bool))
    : res (Channel * list (option bytes)) :=
  match bits with
  | [] => Ok (c, [])
  | (now, b) :: r =>
      '(c, line) <- processBit env o now c b strm ;;
      '(c, out) <- run_bits env o c strm r ;;
      Ok (c, match line with Some l => [line] | None => [] end ++ out)
  end.
