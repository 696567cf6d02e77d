(* C113: RadioText from the bits on the air, and after any disturbance. *)
From Verif.Model Require Import Base Util Float Group BlockSync Options Json Tmc Tables Station Input Channel Dsp Main.
From Verif.Spec Require Import RdsCode RdsStream Reception Inputs Unicode JsonText Session Identity Texts History Host Program Cases Recording OnAir Recovery.
From Verif.Proofs Require Import Tac Syndrome Ring BlockSyncP BlockSyncR BlockSyncT BlockSyncD BlockSyncA BlockSyncG BlockSyncE BlockSyncX RecordP AirP BlockSyncS PartsP AgainTextP.
From Verif.Props Require Import P_Recording P_OnAir P_Recovery P_Again.

Local Open Scope string_scope.
Local Open Scope N_scope.
Local Open Scope list_scope.

(* --- C113 --- *)
(* The bits of the input: anything that brings the receiver into sync (pre and b), any 26-bit words ws0 up to the end
   of a group, and then the groups tes of one station, with errors the receiver tolerates.  No group found in the input
   announces RadioText Plus.  If the parts of RadioText in tes1 and te, in any order and repeated, amount to a complete
   text (C111), it is on the last line printed. *)
Theorem C113_text_from_bits : forall env o clock t input pre b ws0 tes0 tes1 te rest p f v l,
  host_ok env -> host_text env -> o_output_type o = OutJSON ->
  let tes := tes0 ++ tes1 ++ [te] in
  bit_characters input = pre ++ [b] ++ flat_map block_bits ws0 ++ flat_map rx_bits tes ++ rest -> (length rest < 25)%nat ->
  acquires (o_use_fec o) pre b -> Forall (fun w => w < 2 ^ 26) ws0 -> Forall (rx_ok (o_use_fec o)) tes ->
  let first := recognise (window (pre ++ [b])) in
  Reception.kept [false] (err_flags (following first) (ws0 ++ all_words tes)) -> expect_after (following first) ws0 = OffA ->
  p <> 0 -> Forall (fun x => tx1 (fst x) = p) tes -> (3 <= length tes0)%nat ->
  (forall g, In g (groups_after (o_use_fec o) [] (ascii_bits input)) -> ~ In 0x4BD7 (map snd (announcement (g, 0)))) ->
  text_part (fst te) <> [] ->
  uniform f v (flat_map (fun x => text_part (fst x)) (tes1 ++ [te])) ->
  complete_text (rt_size v) (part_writes (flat_map (fun x => text_part (fst x)) (tes1 ++ [te]))) l ->
  exists items line s, processASCIIBitsInput env o clock t input = Ok (EXIT_SUCCESS, items ++ [Line 0 line]) /\
    says line ["radiotext"] (VStr s) /\ trimmed (rds_text l) s.
Proof. exact text_on_air. Qed.
Print Assumptions C113_text_from_bits.

(* bits0: whatever the program received before, from whichever stations, in sync or not.  ts0: 14 groups received without
   error, which meet the conditions of C105.  ts1, ts2 and tn: groups of station p, received without error, at least
   three of them before its message is sent.  rest: whatever follows.  The message is printed. *)
Theorem C113_text_after_any_disturbance : forall env o clock t input bits0 ts0 ts1 ts2 tn rest p f v l,
  host_ok env -> host_text env -> o_output_type o = OutJSON ->
  let bits := bits0 ++ flat_map tx_bits ts0 in
  let ts := ts1 ++ ts2 ++ [tn] in
  bit_characters input = bits ++ flat_map tx_bits ts ++ rest ->
  length ts0 = 14%nat -> Forall tx_ok ts0 -> Forall tx_ok ts ->
  (length (chance_blocks bits (length bits0)) <= 7)%nat -> ~ chance_rhythm bits (length bits0) ->
  p <> 0 -> Forall (fun x => tx1 x = p) ts -> (3 <= length ts1)%nat ->
  (forall g, In g (groups_after (o_use_fec o) [] (ascii_bits input)) -> ~ In 0x4BD7 (map snd (announcement (g, 0)))) ->
  text_part tn <> [] -> uniform f v (flat_map text_part (ts2 ++ [tn])) -> complete_text (rt_size v) (part_writes (flat_map text_part (ts2 ++ [tn]))) l ->
  exists items line s more, processASCIIBitsInput env o clock t input = Ok (EXIT_SUCCESS, items ++ [Line 0 line] ++ more) /\
    says line ["radiotext"] (VStr s) /\ trimmed (rds_text l) s.
Proof. exact text_again. Qed.
Print Assumptions C113_text_after_any_disturbance.

(* "Hello" and an end mark, in two parts, with a group of the name in between; the second part comes twice, with a wrong
   bit the last time *)
Definition hello1 : list (TxGroup * (N * N * N * N)) :=
  [(mkTx 0x1234 0x2410 0x4865 0x6C6C, no_error); (mkTx 0x1234 0x0408 0xE0CD 0x5261, no_error); (mkTx 0x1234 0x2411 0x6F0D 0x2020, no_error)].
Definition hello2 : TxGroup * (N * N * N * N) := (mkTx 0x1234 0x2411 0x6F0D 0x2020, (0, 0, 4, 0)).
Definition hello_input : bytes := bit_text (tx_bits t0 ++ flat_map rx_bits (air0 ++ hello1 ++ [hello2])).
Definition hello_text : list N := [0x48; 0x65; 0x6C; 0x6C; 0x6F; 0x0D].
Lemma no_announcement : forall fec input, forallb (fun g => negb (existsb (fun a => snd a =? 0x4BD7) (announcement (g, 0)))) (groups_after fec [] (ascii_bits input)) = true ->
  forall g, In g (groups_after fec [] (ascii_bits input)) -> ~ In 0x4BD7 (map snd (announcement (g, 0))).
Proof.
  intros fec input H g I X. rewrite forallb_forall in H. specialize (H g I). apply negb_true_iff in H. rewrite <- not_true_iff_false in H. apply H. apply existsb_exists.
  apply in_map_iff in X. destruct X as (a & Ea & Ia). exists a. split; [exact Ia|]. apply N.eqb_eq. exact Ea.
Qed.
Lemma hello_complete : forall ps, part_writes ps = [(0, 0x48); (1, 0x65); (2, 0x6C); (3, 0x6C); (4, 0x6F); (5, 0x0D); (6, 0x20); (7, 0x20); (4, 0x6F); (5, 0x0D); (6, 0x20); (7, 0x20)] ->
  complete_text 64 (part_writes ps) hello_text.
Proof.
  intros ps ->. split; [split|right; exists [0x48; 0x65; 0x6C; 0x6C; 0x6F]; split; [reflexivity|cbn; intuition discriminate]].
  - apply (sequence_is 6 _ [] 0x48 _ eq_refl). reflexivity.
  - intros i b Hi. do 6 (destruct i as [|i]; [cbn in Hi; injection Hi as <-; vm_compute; reflexivity|]). destruct i; discriminate Hi.
Qed.
Example C113_bits_case : let tes := air0 ++ hello1 ++ [hello2] in let first := recognise (window (air_pre ++ [air_bit])) in let ws0 := [tx_block OffD (tx4 t0)] in
  bit_characters hello_input = air_pre ++ [air_bit] ++ flat_map block_bits ws0 ++ flat_map rx_bits tes ++ [] /\
  acquires (o_use_fec Options_default) air_pre air_bit /\ Forall (fun w => w < 2 ^ 26) ws0 /\ Forall (rx_ok (o_use_fec Options_default)) tes /\
  Reception.kept [false] (err_flags (following first) (ws0 ++ all_words tes)) /\ expect_after (following first) ws0 = OffA /\
  Forall (fun x => tx1 (fst x) = 0x1234) tes /\
  (forall g, In g (groups_after (o_use_fec Options_default) [] (ascii_bits hello_input)) -> ~ In 0x4BD7 (map snd (announcement (g, 0)))) /\
  text_part (fst hello2) <> [] /\ uniform true VA (flat_map (fun x => text_part (fst x)) (hello1 ++ [hello2])) /\
  complete_text 64 (part_writes (flat_map (fun x => text_part (fst x)) (hello1 ++ [hello2]))) hello_text.
Proof.
  cbv zeta. split; [vm_compute; reflexivity|]. split; [split; vm_compute; reflexivity|]. split; [repeat constructor; vm_compute; reflexivity|]. split.
  { repeat (apply Forall_cons; [split; [repeat split; vm_compute; reflexivity|]|]); [..|apply Forall_nil];
    repeat match goal with
    | |- _ /\ _ => split
    | |- fixable _ 0 => left; reflexivity
    | |- fixable _ _ => right; split; [reflexivity|apply short_burst_In; vm_compute; tauto]
    | |- _ -> _ => vm_compute; try discriminate; reflexivity
    end. }
  split; [apply kept_dec; vm_compute; reflexivity|]. split; [vm_compute; reflexivity|]. split; [repeat constructor|].
  split; [apply no_announcement; vm_compute; reflexivity|]. split; [discriminate|]. split; [repeat constructor|]. apply hello_complete. reflexivity.
Qed.

(* A bit is received twice; 14 groups of the old station pass; then another station and its message, and noise *)
Definition hello_again : bytes :=
  bit_text (slipped ++ flat_map tx_bits (stations 14) ++ flat_map tx_bits (again1 ++ map fst hello1 ++ [fst hello2]) ++ again_rest).
Example C113_disturbance_case : let bits := slipped ++ flat_map tx_bits (stations 14) in let ts := again1 ++ map fst hello1 ++ [fst hello2] in
  bit_characters hello_again = bits ++ flat_map tx_bits ts ++ again_rest /\ Forall tx_ok (stations 14) /\ Forall tx_ok ts /\
  (length (chance_blocks bits (length slipped)) <= 7)%nat /\ ~ chance_rhythm bits (length slipped) /\
  Forall (fun x => tx1 x = 0x1234) ts /\
  (forall g, In g (groups_after (o_use_fec Options_default) [] (ascii_bits hello_again)) -> ~ In 0x4BD7 (map snd (announcement (g, 0)))) /\
  text_part (fst hello2) <> [] /\ uniform true VA (flat_map text_part (map fst hello1 ++ [fst hello2])) /\
  complete_text 64 (part_writes (flat_map text_part (map fst hello1 ++ [fst hello2]))) hello_text.
Proof.
  cbv zeta. split; [vm_compute; reflexivity|]. split; [apply stations_ok; lia|].
  split; [repeat apply Forall_cons; try apply Forall_nil; vm_compute; repeat split|].
  split; [rewrite slipped_14; cbn [length]; lia|].
  split; [apply no_rhythm; [vm_compute; reflexivity|]; rewrite slipped_14; vm_compute; reflexivity|].
  split; [repeat constructor|]. split; [apply no_announcement; vm_compute; reflexivity|]. split; [discriminate|]. split; [repeat constructor|]. apply hello_complete. reflexivity.
Qed.
