(* C01-C13, C59, C60: from received bits to groups. *)
From Verif.Model Require Import Base Util Group BlockSync.
From Verif.Spec Require Import RdsCode RdsStream Reception.
From Verif.Proofs Require Import Tac Syndrome Ring BlockSyncP BlockSyncR BlockSyncT BlockSyncD BlockSyncA BlockSyncG BlockSyncE BlockSyncX.

(* --- C01 --- *)

Theorem C01_transmitted_blocks_recognised : forall o d, real_offset o -> d < 2 ^ 16 ->
  getOffsetForSyndrome (calculateSyndrome (tx_block o d)) = o.
Proof. exact tx_recognised. Qed.
Print Assumptions C01_transmitted_blocks_recognised.

Theorem C01_only_transmitted_blocks_recognised : forall w o, w < 2 ^ 26 -> real_offset o ->
  getOffsetForSyndrome (calculateSyndrome w) = o <-> exists d, d < 2 ^ 16 /\ w = tx_block o d.
Proof. exact recognised_iff. Qed.
Print Assumptions C01_only_transmitted_blocks_recognised.

Example C01_case : tx_block OffCprime 0x6201 = 0x1880619 /\ calculateSyndrome 0x1880619 = 0x3CC.
Proof. vm_compute. split; reflexivity. Qed.

(* --- C02 --- *)

Theorem C02_short_bursts_corrected : forall o d e, real_offset o -> d < 2 ^ 16 -> short_burst e ->
  correctBurstErrors (N.lxor (tx_block o d) e) o = (true, tx_block o d).
Proof. exact correct_exact. Qed.
Print Assumptions C02_short_bursts_corrected.

Example C02_case : short_burst 0x18000.
Proof. apply short_burst_In. vm_compute. tauto. Qed.

(* --- C03 --- *)

Theorem C03_correction_sound : forall o v c, v < 2 ^ 26 ->
  correctBurstErrors v o = (true, c) ->
  exists e d, short_burst e /\ real_offset o /\ d < 2 ^ 16 /\ c = tx_block o d /\ v = N.lxor c e.
Proof. exact correct_sound. Qed.
Print Assumptions C03_correction_sound.

Theorem C03_failure_changes_nothing : forall o v c, correctBurstErrors v o = (false, c) -> c = v.
Proof. exact correct_fail. Qed.
Print Assumptions C03_failure_changes_nothing.

(* Success happens for exactly the blocks within one short burst of a codeword. *)
Theorem C03_correction_iff : forall o v, v < 2 ^ 26 -> real_offset o ->
  fst (correctBurstErrors v o) = true <->
  exists d e, d < 2 ^ 16 /\ short_burst e /\ v = N.lxor (tx_block o d) e.
Proof. exact correct_iff. Qed.
Print Assumptions C03_correction_iff.

Example C03_case : correctBurstErrors (N.lxor (tx_block OffB 0x1234) 0x600) OffB = (true, tx_block OffB 0x1234)
  /\ fst (correctBurstErrors (N.lxor (tx_block OffB 0x1234) 0x700) OffB) = false.
Proof. vm_compute. split; reflexivity. Qed.

(* --- C04 --- *)

Theorem C04_long_bursts_not_corrected : forall o d len e, d < 2 ^ 16 -> 3 <= len -> len <= 5 ->
  burst len e ->
  correctBurstErrors (N.lxor (tx_block o d) e) o = (false, N.lxor (tx_block o d) e).
Proof. exact long_burst_not_corrected. Qed.
Print Assumptions C04_long_bursts_not_corrected.

Theorem C04_bursts_detected : forall o d len e, real_offset o -> d < 2 ^ 16 -> len <= 10 ->
  burst len e ->
  getOffsetForSyndrome (calculateSyndrome (N.lxor (tx_block o d) e)) <> o.
Proof. exact own_offset_rejects_burst_real. Qed.
Print Assumptions C04_bursts_detected.

Example C04_case : burst 5 (N.shiftl 0x13 7).
Proof. exists 7, 0x13. repeat split; reflexivity || lia. Qed.

(* --- C05 --- *)

Theorem C05_sync_needs_three_blocks_in_rhythm : forall fec pre b, acquires fec pre b ->
  exists t1 t2, (1 <= t1)%nat /\ (t1 < t2)%nat /\ (t2 < S (length pre))%nat /\
    in_rhythm (pre ++ [b]) t1 t2 /\ in_rhythm (pre ++ [b]) t2 (S (length pre)).
Proof. exact sync_needs_rhythm. Qed.
Print Assumptions C05_sync_needs_three_blocks_in_rhythm.

(* For streams shorter than 2^32 bits (41 days) the distances are 26 to 156 bits. *)
Theorem C05_distances : forall bits t1 t2, (t1 < t2)%nat -> (t2 <= length bits)%nat ->
  N.of_nat (length bits) < 2 ^ 32 -> in_rhythm bits t1 t2 ->
  exists k, (1 <= k <= 6)%nat /\ (t2 = t1 + 26 * k)%nat /\
    place (seen_at bits t2) = (place (seen_at bits t1) + N.of_nat k) mod 4.
Proof. exact rhythm_distance. Qed.
Print Assumptions C05_distances.

Example C05_case : acquires true ex_pre ex_bit /\ length ex_pre = 80%nat.
Proof. split; [exact ex_acquires|reflexivity]. Qed.

(* --- C06 --- *)

(* After sync is acquired the error window holds the acquiring block (good) and then one flag per
   block.  ws are the 26-bit words received afterwards. *)
Theorem C06_sync_kept_iff_at_most_42_of_50 : forall fec pre b ws, acquires fec pre b ->
  Forall (fun w => w < 2 ^ 26) ws ->
  let o := recognise (window (pre ++ [b])) in
  (forall k, (k <= length ws)%nat ->
     in_sync_after fec (pre ++ [b] ++ flat_map block_bits (firstn k ws)) = true) <->
  (forall k, (k <= length ws)%nat ->
     count_true (lastn 50 ([false] ++ err_flags (following o) (firstn k ws))) <= 42).
Proof. exact sync_iff. Qed.
Print Assumptions C06_sync_kept_iff_at_most_42_of_50.

(* Never between block boundaries. *)
Theorem C06_never_lost_inside_a_block : forall fec pre b ws l, acquires fec pre b ->
  Forall (fun w => w < 2 ^ 26) ws -> (length l < 26)%nat ->
  (forall k, (k <= length ws)%nat ->
     in_sync_after fec (pre ++ [b] ++ flat_map block_bits (firstn k ws)) = true) ->
  in_sync_after fec (pre ++ [b] ++ flat_map block_bits ws ++ l) = true.
Proof. exact mid_block_sync. Qed.
Print Assumptions C06_never_lost_inside_a_block.

(* The ring buffer of the error window is never indexed outside its 50 entries. *)
Theorem C06_error_window_index_in_range : forall fec bits,
  rs_pointer (bst_error_sum50 (state_after fec bits)) < 50 /\
  length (rs_history (bst_error_sum50 (state_after fec bits))) = 50%nat.
Proof. exact window_index_in_range. Qed.
Print Assumptions C06_error_window_index_in_range.

Example C06_case :
  in_sync_after true (ex_pre ++ [ex_bit] ++ flat_map block_bits (repeat 0 42)) = true /\
  in_sync_after true (ex_pre ++ [ex_bit] ++ flat_map block_bits (repeat 0 43)) = false.
Proof. vm_compute. split; reflexivity. Qed.

(* --- C07, C08 --- *)

(* pre, b: until sync; ws0: anything that leaves the receiver in sync at a group boundary. *)
Theorem C07_error_free_groups_delivered : forall fec pre b ws0 ts, acquires fec pre b ->
  Forall (fun w => w < 2 ^ 26) ws0 -> Forall tx_ok ts ->
  let o := recognise (window (pre ++ [b])) in
  kept [false] (err_flags (following o) ws0) ->
  expect_after (following o) ws0 = OffA ->
  Forall2 (fun t g => delivered t (false, false, false, false) g) ts
    (groups_after fec (pre ++ [b] ++ flat_map block_bits ws0) (flat_map tx_bits ts)) /\
  in_sync_after fec (pre ++ [b] ++ flat_map block_bits ws0 ++ flat_map tx_bits ts) = true.
Proof. exact error_free_delivery. Qed.
Print Assumptions C07_error_free_groups_delivered.

Example C07_case :
  let o := recognise (window (ex_pre ++ [ex_bit])) in
  acquires true ex_pre ex_bit /\ Forall (fun w => w < 2 ^ 26) ex_rest /\ Forall tx_ok [ex_tB; ex_t] /\
  kept [false] (err_flags (following o) ex_rest) /\ expect_after (following o) ex_rest = OffA.
Proof.
  split; [exact ex_acquires|]. split; [repeat constructor|].
  split; [repeat constructor; vm_compute; reflexivity|].
  split; [apply kept_dec; vm_compute; reflexivity|vm_compute; reflexivity].
Qed.

Theorem C08_correctable_errors_delivered : forall fec pre b ws0 tes, acquires fec pre b ->
  Forall (fun w => w < 2 ^ 26) ws0 -> Forall (rx_ok fec) tes ->
  let o := recognise (window (pre ++ [b])) in
  kept [false] (err_flags (following o) (ws0 ++ all_words tes)) ->
  expect_after (following o) ws0 = OffA ->
  Forall2 (fun te g => delivered (fst te) (bad4 (snd te)) g) tes
    (groups_after fec (pre ++ [b] ++ flat_map block_bits ws0) (flat_map rx_bits tes)).
Proof. exact delivery. Qed.
Print Assumptions C08_correctable_errors_delivered.

Definition ex_errors : list (TxGroup * (N * N * N * N)) :=
  [(ex_t, (0x3, 0, 0x2000000, 0x180)); (ex_tB, (1, 2, 0, 4))].

Example C08_case :
  let o := recognise (window (ex_pre ++ [ex_bit])) in
  Forall (rx_ok true) ex_errors /\
  kept [false] (err_flags (following o) (ex_rest ++ all_words ex_errors)).
Proof.
  split; [|apply kept_dec; vm_compute; reflexivity].
  constructor; [|constructor; [|constructor]];
    (split; [repeat split; vm_compute; reflexivity|]);
    repeat match goal with
    | |- _ /\ _ => split
    | |- fixable true 0 => left; reflexivity
    | |- fixable true _ => right; split; [reflexivity|apply short_burst_In; vm_compute; tauto]
    | |- _ -> _ => vm_compute; try discriminate; reflexivity
    end.
Qed.

(* --- C09 --- *)

(* Three consecutive error-free blocks w1 w2 w3 after any history bits0.  The receiver is assumed
   not to have locked on to something else before the last bit of w3. *)
Theorem C09_lock_on : forall fec bits0 o1 o2 o3 d1 d2 d3,
  real_offset o1 -> real_offset o2 -> real_offset o3 ->
  d1 < 2 ^ 16 -> d2 < 2 ^ 16 -> d3 < 2 ^ 16 ->
  place o2 = (place o1 + 1) mod 4 -> place o3 = (place o2 + 1) mod 4 ->
  let w1 := block_bits (tx_block o1 d1) in
  let w2 := block_bits (tx_block o2 d2) in
  let w3 := block_bits (tx_block o3 d3) in
  let bits := bits0 ++ w1 ++ w2 ++ w3 in
  let n1 := (length bits0 + 26)%nat in
  (forall k, (n1 - 1 <= k)%nat -> (k < length bits)%nat -> in_sync_after fec (firstn k bits) = false) ->
  (length (phantoms bits n1 (n1 + 26)) + length (phantoms bits (n1 + 26) (n1 + 52)) <= 1)%nat ->
  in_sync_after fec bits = true /\
  bst_expected_offset (state_after fec bits) = following o3.
Proof. exact cold_start. Qed.
Print Assumptions C09_lock_on.

Example C09_case :
  let bits := [true; false; true] ++ block_bits (tx_block OffA 0x6201) ++ block_bits (tx_block OffB 0x0548) ++
              block_bits (tx_block OffC 0x5B4C) in
  forallb (fun k => negb (in_sync_after true (firstn k bits))) (seq 28 53) = true /\
  (length (phantoms bits 29 55) + length (phantoms bits 55 81) <= 1)%nat.
Proof. vm_compute. split; [reflexivity|repeat constructor]. Qed.

(* --- C10 --- *)

(* While sync is kept, from a group boundary: one group per 104 bits, none in between. *)
Theorem C10_one_group_per_104_bits : forall fec pre b ws0 ws l, acquires fec pre b ->
  Forall (fun w => w < 2 ^ 26) ws0 -> Forall (fun w => w < 2 ^ 26) ws -> (length l < 26)%nat ->
  let o := recognise (window (pre ++ [b])) in
  kept [false] (err_flags (following o) (ws0 ++ ws)) ->
  expect_after (following o) ws0 = OffA ->
  N.of_nat (length (groups_after fec (pre ++ [b] ++ flat_map block_bits ws0) (flat_map block_bits ws ++ l)))
  = N.of_nat (length (flat_map block_bits ws ++ l)) / 104.
Proof. exact group_every_104. Qed.
Print Assumptions C10_one_group_per_104_bits.

Example C10_case :
  let o := recognise (window (ex_pre ++ [ex_bit])) in
  kept [false] (err_flags (following o) (ex_rest ++ repeat 0 9)) /\
  length (groups_after true (ex_pre ++ [ex_bit] ++ flat_map block_bits ex_rest)
            (flat_map block_bits (repeat 0 9) ++ [true])) = 2%nat.
Proof. split; [apply kept_dec; vm_compute; reflexivity|vm_compute; reflexivity]. Qed.

(* --- C11 (bit stream part; see also P_Channel) --- *)

Theorem C11_chunking_bits : forall s l m,
  snd (bst_run s (l ++ m)) = snd (bst_run s l) ++ snd (bst_run (fst (bst_run s l)) m) /\
  fst (bst_run s (l ++ m)) = fst (bst_run (fst (bst_run s l)) m).
Proof. exact run_app_split. Qed.
Print Assumptions C11_chunking_bits.

(* --- C60: nothing is made up --- *)

(* Whatever four 26-bit words follow a group boundary, the group handed over contains a block in a
   place only if the word received there is a transmitted block of that place with a tolerable
   error, and then the block holds the transmitted information and the error flag is right. *)
Theorem C60_blocks_are_what_was_received : forall fec pre b ws0 w1 w2 w3 w4, acquires fec pre b ->
  Forall (fun w => w < 2 ^ 26) ws0 -> Forall (fun w => w < 2 ^ 26) [w1; w2; w3; w4] ->
  let o := recognise (window (pre ++ [b])) in
  kept [false] (err_flags (following o) (ws0 ++ [w1; w2; w3; w4])) ->
  expect_after (following o) ws0 = OffA ->
  exists g, groups_after fec (pre ++ [b] ++ flat_map block_bits ws0) (flat_map block_bits [w1; w2; w3; w4]) = [g] /\
  forall n,
    (g_has g n = true <->
     exists d e, d < 2 ^ 16 /\ fixable fec e /\ word_of w1 w2 w3 w4 n = N.lxor (tx_block (own_offset w3 n) d) e) /\
    (g_has g n = true ->
     g_get g n < 2 ^ 16 /\
     exists e, fixable fec e /\ word_of w1 w2 w3 w4 n = N.lxor (tx_block (own_offset w3 n) (g_get g n)) e /\
               blk_had_errors (g_block g n) = negb (e =? 0) /\ blk_offset (g_block g n) = own_offset w3 n).
Proof. exact group_exact. Qed.
Print Assumptions C60_blocks_are_what_was_received.

Example C60_case :
  let o := recognise (window (ex_pre ++ [ex_bit])) in
  kept [false] (err_flags (following o) (ex_rest ++ [5; tx_block OffB 0x0548; 77; tx_block OffD 1])).
Proof. apply kept_dec; vm_compute; reflexivity. Qed.

(* --- C12 --- *)

Theorem C12_type_known_only_when_received : forall fec pre b ws0 w1 w2 w3 w4, acquires fec pre b ->
  Forall (fun w => w < 2 ^ 26) ws0 -> Forall (fun w => w < 2 ^ 26) [w1; w2; w3; w4] ->
  let o := recognise (window (pre ++ [b])) in
  kept [false] (err_flags (following o) (ws0 ++ [w1; w2; w3; w4])) ->
  expect_after (following o) ws0 = OffA ->
  exists g, groups_after fec (pre ++ [b] ++ flat_map block_bits ws0) (flat_map block_bits [w1; w2; w3; w4]) = [g] /\
  (g_has_type g = true <->
   g_has g BLOCK2 = true /\
   (N.testbit (g_get g BLOCK2) 11 = true -> g_has g BLOCK3 = true /\ blk_offset (g_block g BLOCK3) = OffCprime)) /\
  (g_has_type g = true ->
   gt_number (g_type g) = g_get g BLOCK2 / 4096 /\
   gt_version (g_type g) = if N.testbit (g_get g BLOCK2) 11 then VB else VA).
Proof. exact type_exact. Qed.
Print Assumptions C12_type_known_only_when_received.

(* --- C13 --- *)

Theorem C13_pi_from_received_block : forall g, gt_version (g_type g) <> VC ->
  (g_has g BLOCK1 = true -> g_hasPI g = true /\ g_getPI g = g_get g BLOCK1) /\
  (g_has g BLOCK1 = false -> g_has g BLOCK3 = true -> blk_offset (g_block g BLOCK3) = OffCprime ->
     g_hasPI g = true /\ g_getPI g = g_get g BLOCK3) /\
  (g_has g BLOCK1 = false -> (g_has g BLOCK3 = false \/ blk_offset (g_block g BLOCK3) <> OffCprime) ->
     g_hasPI g = false).
Proof. exact pi_source. Qed.
Print Assumptions C13_pi_from_received_block.

Example C13_case : exists g, gt_version (g_type g) <> VC /\ g_has g BLOCK1 = false /\
  g_has g BLOCK3 = true /\ blk_offset (g_block g BLOCK3) = OffCprime.
Proof.
  exists (g_setBlock Group_default BLOCK3 (mkBlock 0 0x6201 true false OffCprime)).
  vm_compute. repeat split; discriminate.
Qed.

(* --- C59: errors of a C' block --- *)

(* A version B group whose third block (offset C', information word d) suffers an error e of one bit
   or two adjacent bits, while the other blocks are received as any words.  The third block is
   missing from the group, except in two cases, with error correction on: bit 20 inverted, or bits 23
   and 24 inverted.  In those it is delivered with a wrong information word. *)
Theorem C59_cprime_errors : forall fec pre b ws0 w1 w2 w4 d e, acquires fec pre b ->
  Forall (fun w => w < 2 ^ 26) ws0 -> Forall (fun w => w < 2 ^ 26) [w1; w2; w4] -> d < 2 ^ 16 -> short_burst e ->
  let w3 := N.lxor (tx_block OffCprime d) e in
  let o := recognise (window (pre ++ [b])) in
  kept [false] (err_flags (following o) (ws0 ++ [w1; w2; w3; w4])) ->
  expect_after (following o) ws0 = OffA ->
  exists g, groups_after fec (pre ++ [b] ++ flat_map block_bits ws0) (flat_map block_bits [w1; w2; w3; w4]) = [g] /\
  (g_has g BLOCK3 = true <-> fec = true /\ (e = 2 ^ 20 \/ e = 3 * 2 ^ 23)) /\
  (g_has g BLOCK3 = true -> g_get g BLOCK3 = N.lxor d 0x6400).
Proof. exact cprime_exact. Qed.
Print Assumptions C59_cprime_errors.

Example C59_case : short_burst (2 ^ 20) /\ short_burst (3 * 2 ^ 23) /\ short_burst (2 ^ 19) /\
  Forall (fun e => kept [false] (err_flags (following (recognise (window (ex_pre ++ [ex_bit]))))
    (ex_rest ++ [tx_block OffA 0x6201; tx_block OffB 0x2D48; N.lxor (tx_block OffCprime 0x6201) e; tx_block OffD 0x4142]))) [2 ^ 20; 2 ^ 19].
Proof.
  split; [|split; [|split]]; try (apply short_burst_In; vm_compute; tauto).
  constructor; [apply kept_dec; vm_compute; reflexivity|]. constructor; [apply kept_dec; vm_compute; reflexivity|constructor].
Qed.

(* So the claim without exceptions is false: with error correction on, a version B group whose third block suffers an error of two adjacent
   bits can be delivered with a wrong third block, taken for an offset C block. *)
Theorem C59_cprime_block_miscorrected_refuted :
  exists pre b ws0 t e3 g, acquires true pre b /\ tx_ok t /\ third_offset t = OffCprime /\
  short_burst e3 /\
  groups_after true (pre ++ [b] ++ flat_map block_bits ws0) (rx_bits (t, (0, 0, e3, 0))) = [g] /\
  g_has g BLOCK3 = true /\ g_get g BLOCK3 <> tx3 t.
Proof. exact cprime_refuted. Qed.
Print Assumptions C59_cprime_block_miscorrected_refuted.
