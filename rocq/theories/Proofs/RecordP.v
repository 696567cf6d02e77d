(* Recordings in hexadecimal decode to the same lines (C75). *)
From Verif.Model Require Import Base Util Float Group BlockSync Options Tables Freq RdsString Rft Json Tmc Station Channel Input Dsp Main.
From Verif.Spec Require Import RdsCode RdsStream Reception Inputs Session Identity Texts History Received Program Recording.
From Verif.Proofs Require Import Tac Schema StationP UpdateP SessionP LineP FrameP ChannelP LinesP HistoryP TraceP HostP RtP ReceivedP InputP HexP MainP BlockSyncG.

(* What is known of a group of any input *)
Definition shape (g : Group) : Prop :=
  g_has_bler g = false /\ g_bler g = S754_zero false /\ g_has_c_prime g = false /\
  (g_has g BLOCK2 = false -> g_type g = GroupType_default /\ g_has_type g = false) /\
  (g_has g BLOCK2 = true -> g_type g = GroupType_of (getBits 5 (g_get g BLOCK2) 11)).

Lemma version_AB : forall d, gt_version (GroupType_of d) = VA \/ gt_version (GroupType_of d) = VB.
Proof. intros d. unfold GroupType_of. cbn [gt_version]. destruct (_ =? 0); auto. Qed.

Lemma set_others : forall g n b, let g' := g_setBlock g n b in
  g_has_bler g' = g_has_bler g /\ g_bler g' = g_bler g /\ g_has_c_prime g' = g_has_c_prime g /\ g_no_offsets g' = g_no_offsets g /\
  g_has_time g' = g_has_time g /\ g_data_stream g' = g_data_stream g.
Proof.
  intros g n b. unfold g_setBlock. destruct n; cbn [g_put_block g_has_type]; destruct (g_has_type g); try (cbn; repeat split; reflexivity);
    repeat match goal with |- context [match gt_version ?t with _ => _ end] => destruct (gt_version t) | |- context [if ?c then _ else _] => destruct c end; cbn; repeat split; reflexivity.
Qed.
Lemma set_type : forall g n b, g_has_c_prime g = false ->
  g_type (g_setBlock g n b) = if negb (g_has_type g) && blockNumber_eqb n BLOCK2 then GroupType_of (getBits 5 (blk_data b) 11) else g_type g.
Proof.
  intros g n b C. unfold g_setBlock. destruct n; cbn [g_put_block g_has_type g_has_c_prime]; destruct (g_has_type g) eqn:T; try reflexivity; rewrite ?C; cbn [andb negb].
  - destruct (_ && _); reflexivity.
  - destruct (gt_version _); destruct (_ && _); reflexivity.
  - destruct (_ && _); reflexivity.
  - destruct (_ && _); reflexivity.
Qed.
Lemma set_no_type : forall g n b, g_has_c_prime g = false -> g_has_type g = false -> g_has g BLOCK2 = false -> n <> BLOCK2 -> g_has_type (g_setBlock g n b) = false.
Proof.
  intros g n b C T H N. unfold g_setBlock, g_has in *. cbn [g_block] in H. destruct n; [|congruence| |]; cbn [g_put_block g_has_type g_has_c_prime g_block g_b2]; rewrite T, ?C; cbn [andb negb g_b2]; rewrite ?H, ?andb_false_r; first [reflexivity|exact T].
Qed.
Lemma set_keeps_type : forall g n b, g_has_type g = true -> g_has_type (g_setBlock g n b) = true.
Proof. exact setBlock_keeps_type. Qed.
Lemma set_free_type : forall g b, g_no_offsets g = true -> blk_offset b = OffInvalid -> g_has_type (g_setBlock g BLOCK2 b) = true.
Proof.
  intros g b N O. unfold g_setBlock. cbn [g_put_block g_has_type]. destruct (g_has_type g) eqn:T; [reflexivity|]. rewrite O. cbn [Offset_eqb andb].
  destruct (gt_version _); cbn [g_put_type g_has_type g_no_offsets g_has_c_prime]; try reflexivity; rewrite N, orb_true_r; reflexivity.
Qed.

Lemma shape_set : forall g n b, shape g -> blk_is_received b = true -> (n = BLOCK2 -> g_has g BLOCK2 = false) -> shape (g_setBlock g n b).
Proof.
  intros g n b (S1 & S2 & S3 & S4 & S5) R H2. destruct (set_others g n b) as (O1 & O2 & O3 & O4 & O5 & O6). unfold shape. rewrite O1, O2, O3, (set_type g n b S3).
  do 3 (split; [assumption|]). unfold g_get, g_has. rewrite setBlock_block. destruct (blockNumber_eqb n BLOCK2) eqn:E.
  - assert (n = BLOCK2) as -> by (destruct n; try discriminate; reflexivity). destruct (S4 (H2 eq_refl)) as [_ T]. rewrite T. cbn [negb andb]. change (blockNumber_eqb BLOCK2 BLOCK2) with true. cbv iota. rewrite R. split; [discriminate|reflexivity].
  - assert (N : n <> BLOCK2) by (intros ->; discriminate). replace (blockNumber_eqb BLOCK2 n) with false by (destruct n; try reflexivity; congruence). rewrite andb_false_r.
    split; [|exact S5]. intros H. destruct (S4 H) as [T1 T2]. split; [exact T1|]. apply set_no_type; assumption.
Qed.

(* --- groups read from text --- *)
Definition free_shape (g : Group) : Prop := shape g /\ g_no_offsets g = true /\ g_has_type g = g_has g BLOCK2 /\ blk_offset (g_b3 g) = OffInvalid.
Lemma free_set : forall g n d, free_shape g -> (n = BLOCK2 -> g_has g BLOCK2 = false) -> free_shape (g_setBlock g n (plain_block d true)).
Proof.
  intros g n d (S & N & T & O) H. destruct (set_others g n (plain_block d true)) as (O1 & O2 & O3 & O4 & O5 & O6).
  split; [apply shape_set; [exact S|reflexivity|exact H]|]. split; [rewrite O4; exact N|]. split.
  - unfold g_has at 1. rewrite setBlock_block. destruct (blockNumber_eqb BLOCK2 n) eqn:E.
    + assert (n = BLOCK2) as -> by (destruct n; try discriminate; reflexivity). rewrite set_free_type; [reflexivity|exact N|reflexivity].
    + fold (g_has g BLOCK2). rewrite <- T. destruct (g_has_type g) eqn:Q; [apply set_keeps_type, Q|]. apply set_no_type; [apply S|exact Q|symmetry; exact T|intros ->; discriminate].
  - change (g_b3 (g_setBlock g n (plain_block d true))) with (g_block (g_setBlock g n (plain_block d true)) BLOCK3). rewrite setBlock_block. destruct (blockNumber_eqb BLOCK3 n); [reflexivity|exact O].
Qed.
Lemma read_block_free : forall n g line, free_shape g -> (n = BLOCK2 -> g_has g BLOCK2 = false) ->
  let g' := fst (read_hex_block n (g, line)) in free_shape g' /\ (n <> BLOCK2 -> g_has g' BLOCK2 = g_has g BLOCK2) /\ g_has_time g' = g_has_time g.
Proof.
  intros n g line F H. unfold read_hex_block. destruct (read_nibbles line 4 0 true) as [[d v] r]. cbn [fst]. destruct v; [|split; [exact F|]; split; reflexivity].
  split; [apply free_set; assumption|]. split; [|apply set_others]. intros N. unfold g_has. rewrite setBlock_block. replace (blockNumber_eqb BLOCK2 n) with false by (destruct n; try reflexivity; congruence). reflexivity.
Qed.
Lemma parse_free : forall line g, free_shape g -> g_has g BLOCK2 = false -> free_shape (parse_hex_line line g).
Proof.
  intros line g F H. unfold parse_hex_line. destruct (hex_stream line) as [w l]. set (g0 := g_setDataStream g w). assert (F0 : free_shape g0) by exact F. assert (H0 : g_has g0 BLOCK2 = false) by exact H. clearbody g0.
  destruct (read_block_free BLOCK1 g0 l F0 ltac:(discriminate)) as (F1 & K1 & _). destruct (read_hex_block BLOCK1 (g0, l)) as [g1 l1]. cbn [fst] in F1, K1.
  destruct (read_block_free BLOCK2 g1 l1 F1 ltac:(intros _; rewrite K1; [exact H0|discriminate])) as (F2 & _). destruct (read_hex_block BLOCK2 (g1, l1)) as [g2 l2]. cbn [fst] in F2.
  destruct (read_block_free BLOCK3 g2 l2 F2 ltac:(discriminate)) as (F3 & _). destruct (read_hex_block BLOCK3 (g2, l2)) as [g3 l3]. cbn [fst] in F3.
  destruct (read_block_free BLOCK4 g3 l3 F3 ltac:(discriminate)) as (F4 & _). exact F4.
Qed.
Lemma default_free : free_shape (g_disableOffsets Group_default).
Proof. unfold free_shape, shape. repeat split; intros; try reflexivity; discriminate. Qed.
Lemma read_free : forall o now lines, free_shape (fst (readHexGroup o now lines)).
Proof.
  intros o now lines. unfold readHexGroup. assert (F : free_shape (fst (readHexGroup_loop lines (g_disableOffsets Group_default)))).
  { induction lines as [|l lines IH]; cbn [readHexGroup_loop]; [exact default_free|]. destruct (_ <? 16); [exact IH|]. cbn [fst]. apply parse_free; [exact default_free|reflexivity]. }
  destruct (readHexGroup_loop lines (g_disableOffsets Group_default)) as [g rest]. cbn [fst] in *. destruct (o_timestamp o); exact F.
Qed.
Lemma hex_free : forall fuel o lines clock, Forall free_shape (hex_groups fuel o clock lines).
Proof.
  induction fuel as [|f IH]; intros o lines clock; destruct lines as [|l lines]; cbn [hex_groups]; try constructor.
  pose proof (read_free o (clock O) (l :: lines)) as F. destruct (readHexGroup o (clock O) (l :: lines)) as [g rest]. constructor; [exact F|apply IH].
Qed.

(* --- groups of the bit stream --- *)
Definition narrow (g : Group) : Prop := forall n, g_get g n < 2 ^ 16.
Definition bit_shape (g : Group) : Prop := shape g /\ narrow g /\ g_data_stream g = 0.
Definition stream_shape (s : BlockStream) : Prop :=
  bit_shape (bst_current_group s) /\
  (bst_has_group_ready s = true -> bit_shape (bst_ready_group s)) /\
  (bst_is_in_sync s = true -> bst_expected_offset s = OffA \/ bst_expected_offset s = OffB -> g_has (bst_current_group s) BLOCK2 = false).
Lemma default_shape : bit_shape Group_default.
Proof. unfold bit_shape, shape. repeat split; intros; try reflexivity; try discriminate. intros []; reflexivity. Qed.
Lemma bit_set : forall g n raw data err off, bit_shape g -> data < 2 ^ 16 -> (n = BLOCK2 -> g_has g BLOCK2 = false) -> bit_shape (g_setBlock g n (mkBlock raw data true err off)).
Proof.
  intros g n raw data err off (S & N & D) L H. split; [apply shape_set; [exact S|reflexivity|exact H]|]. split.
  - intros m. unfold g_get. rewrite setBlock_block. destruct (blockNumber_eqb m n); [exact L|apply N].
  - destruct (set_others g n (mkBlock raw data true err off)) as (_ & _ & _ & _ & _ & X). rewrite X. exact D.
Qed.
Lemma push_shape : forall s bit, stream_shape s -> stream_shape (pushBit s bit).
Proof.
  intros s bit S. unfold pushBit.
  set (s1 := mkBlockStream _ _ _ _ _ _ _ _ _ _ _ _). assert (S1 : stream_shape s1) by exact S. clearbody s1. clear s S. rename s1 into s, S1 into S.
  destruct (_ =? 0); [|exact S]. match goal with |- stream_shape (bst_set_until ?x ?n) => assert (G : stream_shape x); [|exact G] end.
  unfold findBlockInInputRegister. set (raw := N.land _ _). set (off := getOffsetForSyndrome _).
  assert (A : stream_shape (acquireSync s off)).
  { unfold acquireSync. destruct (bst_is_in_sync s) eqn:Y; [exact S|]. destruct S as (S1 & S3 & S4).
    destruct (negb _); [destruct (isSequenceFound _)|]; unfold stream_shape; cbn [bst_current_group bst_has_group_ready bst_ready_group bst_is_in_sync bst_expected_offset].
    - split; [exact default_shape|]. split; [exact S3|]. intros; reflexivity.
    - split; [exact S1|]. split; [exact S3|]. intros; discriminate.
    - split; [exact S1|]. split; [exact S3|]. intros; discriminate. }
  set (s1 := acquireSync s off) in *. clearbody s1 raw off. clear S s. destruct (bst_is_in_sync s1) eqn:Y; [|exact A]. cbv zeta.
  match goal with |- context [if ?q then bst_set_expected s1 OffCprime else s1] => set (s2 := if q then bst_set_expected s1 OffCprime else s1) end.
  assert (A2 : stream_shape s2 /\ bst_is_in_sync s2 = true).
  { unfold s2. destruct (_ && _); [|split; assumption]. split; [|exact Y]. destruct A as (A1 & A3 & A4). split; [exact A1|]. split; [exact A3|]. cbn. intros _ [X|X]; discriminate X. }
  clearbody s2. destruct A2 as [A2 Y2]. clear A Y s1. set (e := bst_expected_offset s2). set (s3 := bst_set_sum s2 _).
  assert (A3 : stream_shape s3) by exact A2. assert (E3 : bst_expected_offset s3 = e) by reflexivity. assert (Y3 : bst_is_in_sync s3 = true) by exact Y2. clearbody s3 e. clear s2 A2 Y2.
  destruct (_ <? _).
  { destruct A3 as (B1 & B3 & B4). unfold stream_shape. cbn [bst_current_group bst_has_group_ready bst_ready_group bst_is_in_sync bst_expected_offset].
    split; [exact B1|]. split; [exact B3|]. intros; discriminate. }
  match goal with |- context [let '(data, offset') := ?x in _] => assert (L : fst x < 2 ^ 16); [|destruct x as [data off']; cbn [fst] in L] end.
  { destruct (_ && _); [destruct (correctBurstErrors raw e) as [[] cb]|]; cbn [fst]; unfold u16; apply N.mod_lt; discriminate. }
  match goal with |- context [if Offset_eqb off' e then ?x else s3] => set (s4 := if Offset_eqb off' e then x else s3) end.
  assert (A4 : bit_shape (bst_current_group s4) /\ bst_has_group_ready s4 = bst_has_group_ready s3 /\ bst_ready_group s4 = bst_ready_group s3 /\
    (e = OffA -> g_has (bst_current_group s4) BLOCK2 = false) /\ bst_is_in_sync s4 = true).
  { destruct A3 as (B1 & B3 & B4). unfold s4. destruct (Offset_eqb off' e) eqn:Q.
    - cbn [bst_set_group bst_current_group bst_has_group_ready bst_ready_group bst_is_in_sync]. split.
      { apply bit_set; [exact B1|exact L|]. intros N. apply B4; [exact Y3|]. rewrite E3. destruct e; try discriminate N; auto. }
      split; [reflexivity|]. split; [reflexivity|]. split; [|exact Y3]. intros ->. unfold g_has. rewrite setBlock_block. cbn [getBlockNumberForOffset]. change (blockNumber_eqb BLOCK2 BLOCK1) with false. cbv iota. apply B4; [exact Y3|left; exact E3].
    - split; [exact B1|]. split; [reflexivity|]. split; [reflexivity|]. split; [|exact Y3]. intros ->. apply B4; [exact Y3|left; exact E3]. }
  destruct A3 as (_ & B3 & _). destruct A4 as (C1 & C3 & C4 & C5 & C6). clearbody s4.
  cbn [bst_set_expected bst_expected_offset]. destruct (Offset_eqb (getNextOffsetFor e) OffA) eqn:NA; unfold handleNewlyReceivedGroup, stream_shape; cbn [bst_set_expected bst_current_group bst_has_group_ready bst_ready_group bst_is_in_sync bst_expected_offset].
  - split; [exact default_shape|]. split; [intros _; exact C1|]. intros; reflexivity.
  - split; [exact C1|]. split; [rewrite C3, C4; exact B3|]. intros _ [X|X]; [rewrite X in NA; discriminate|]. apply C5. destruct e; try discriminate X; reflexivity.
Qed.
Lemma stream_shapes : forall bits s s' gs, bst_run s bits = (s', gs) -> stream_shape s -> Forall bit_shape gs /\ stream_shape s'.
Proof.
  induction bits as [|b bits IH]; intros s s' gs R S; cbn [bst_run] in R; [injection R as <- <-; split; [constructor|exact S]|].
  unfold bst_step in R. pose proof (push_shape s b S) as P. set (s1 := pushBit s b) in *. clearbody s1. destruct (bst_has_group_ready s1) eqn:Q.
  - destruct (bst_run (popGroup s1) bits) as [s2 gs2] eqn:E. injection R as <- <-. destruct P as (P1 & P3 & P4).
    destruct (IH _ _ _ E) as [F S2]; [split; [exact P1|]; split; [discriminate|exact P4]|]. split; [constructor; [apply P3, Q|exact F]|exact S2].
  - destruct (bst_run s1 bits) as [s2 gs2] eqn:E. injection R as <- <-. exact (IH _ _ _ E P).
Qed.

(* --- the decoder is fed the groups of the bit stream --- *)
Fixpoint bit_groups (s : BlockStream) (bits : list (Z * bool)) : list (Z * Group * N) :=
  match bits with
  | [] => []
  | (now, b) :: r => let '(s1, og) := bst_step s b in
      match og with Some g => (now, g, 0) :: bit_groups s1 r | None => bit_groups s1 r end
  end.
Lemma bit_groups_run : forall bits s, map (fun x => snd (fst x)) (bit_groups s bits) = snd (bst_run s (map snd bits)) /\ Forall (fun x => snd x = 0) (bit_groups s bits).
Proof.
  induction bits as [|[now b] bits IH]; intros s; cbn [bit_groups map bst_run snd]; [split; [reflexivity|constructor]|].
  destruct (bst_step s b) as [s1 [g|]]; destruct (IH s1) as [E F]; destruct (bst_run s1 (map snd bits)) as [s2 gs]; cbn [map fst snd] in *; (split; [congruence|]); [constructor; [reflexivity|exact F]|exact F].
Qed.
Definition streams_set (c : Channel) (s : BlockStream) : Channel := ch_set_stream c 0 s.
Lemma process_lift : forall env o now c g w s, processGroup env o now (streams_set c s) g w = ('(c', l) <- processGroup env o now c g w ;; Ok (streams_set c' s, l)).
Proof.
  intros env o now c g w s. rewrite !process_eq. cbv zeta. assert (P : prepared o now (streams_set c s) g w = prepared o now c g w) by reflexivity. rewrite P.
  assert (T : tuned (streams_set c s) (prepared o now c g w) = tuned c (prepared o now c g w)) by reflexivity. rewrite T.
  destruct (o_output_type o); [reflexivity|]. destruct (updateAndPrint env o _ _) as [[st l]|m|m]; reflexivity.
Qed.
Lemma run_lift : forall env o s gs c, run_groups env o (streams_set c s) gs = ('(c', out) <- run_groups env o c gs ;; Ok (streams_set c' s, out)).
Proof.
  intros env o s gs. induction gs as [|[[now g] w] gs IH]; intros c; cbn [run_groups]; [reflexivity|].
  rewrite process_lift. destruct (processGroup env o now c g w) as [[c1 l1]|m|m]; cbn [bind]; [|reflexivity|reflexivity].
  rewrite IH. destruct (run_groups env o c1 gs) as [[c2 o2]|m|m]; reflexivity.
Qed.
Definition shown (out : list (option bytes)) : list (option bytes) := flat_map (fun l => match l with Some _ => [l] | None => [] end) out.
Lemma set_set : forall c s1 s2, streams_set (streams_set c s1) s2 = streams_set c s2.
Proof. intros c s1 s2. unfold streams_set, ch_set_stream. cbn [ch_which_channel ch_cached_pi ch_block_stream ch_station ch_bler_average ch_last_group_rx_time]. f_equal. destruct (ch_block_stream c); reflexivity. Qed.
Lemma set_get : forall c s, (1 <= length (ch_block_stream c))%nat -> arr_get (ch_block_stream (streams_set c s)) 0 = Ok s.
Proof. intros c s L. unfold streams_set, ch_set_stream. cbn [ch_block_stream]. destruct (ch_block_stream c) as [|x l]; [cbn in L; lia|reflexivity]. Qed.
Lemma run_bits_groups : forall env o bits c s, arr_get (ch_block_stream c) 0 = Ok s -> (1 <= length (ch_block_stream c))%nat ->
  run_bits env o c 0 bits = ('(c1, out) <- run_groups env o c (bit_groups s bits) ;; Ok (match bits with [] => c1 | _ => streams_set c1 (fst (bst_run s (map snd bits))) end, shown out)).
Proof.
  intros env o bits. induction bits as [|[now b] bits IH]; intros c s G L; cbn [run_bits bit_groups run_groups bind map snd bst_run]; [reflexivity|].
  unfold processBit. rewrite G. cbn [bind]. destruct (bst_step s b) as [s1 [g|]] eqn:E.
  - change (ch_set_stream c 0 s1) with (streams_set c s1). rewrite process_lift. cbn [run_groups]. destruct (processGroup env o now c g 0) as [[c1 l1]|m|m] eqn:P; cbn [bind]; [|reflexivity|reflexivity].
    pose proof (process_streams env o now c g 0 c1 l1 P) as PS. rewrite (IH (streams_set c1 s1) s1); [|apply set_get; rewrite PS; exact L|unfold streams_set, ch_set_stream; cbn [ch_block_stream]; rewrite list_set_length, PS; exact L].
    rewrite run_lift. destruct (run_groups env o c1 (bit_groups s1 bits)) as [[c2 o2]|m|m]; cbn [bind]; [|reflexivity|reflexivity].
    cbn [shown flat_map]. fold (shown o2). f_equal. f_equal. destruct (bst_run s1 (map snd bits)) as [s2 gs2] eqn:B. cbn [fst]. destruct bits; [cbn in B; injection B as <- <-; reflexivity|]. apply set_set.
  - change (ch_set_stream c 0 s1) with (streams_set c s1). cbn [bind]. rewrite (IH (streams_set c s1) s1); [|apply set_get; exact L|unfold streams_set, ch_set_stream; cbn [ch_block_stream]; rewrite list_set_length; exact L].
    rewrite run_lift. destruct (run_groups env o c (bit_groups s1 bits)) as [[c2 o2]|m|m]; cbn [bind]; [|reflexivity|reflexivity].
    f_equal. f_equal. destruct (bst_run s1 (map snd bits)) as [s2 gs2] eqn:B. cbn [fst]. destruct bits; [cbn in B; injection B as <- <-; reflexivity|]. apply set_set.
Qed.

(* --- a group and its line read back --- *)
Lemma recorded_alike : forall o g g', o_timestamp o = false -> o_bler o = false -> bit_shape g -> recorded g -> free_shape g' -> g_data_stream g' = 0 ->
  (forall n, received g' n = received g n) -> alike o g g'.
Proof.
  intros o g g' T B (S & _ & D) (R2 & R1) (S' & _ & T' & O') D' E.
  assert (Hh : forall n, g_has g' n = g_has g n).
  { intros n. specialize (E n). unfold received in E. unfold g_has. destruct (blk_is_received (g_block g' n)), (blk_is_received (g_block g n)); try discriminate; reflexivity. }
  assert (Hg : forall n, g_has g n = true -> g_get g' n = g_get g n).
  { intros n H. pose proof (Hh n) as H'. specialize (E n). unfold received in E. unfold g_get. unfold g_has in H, H'. rewrite H', H in E. congruence. }
  destruct S as (S1 & S2 & S3 & S4 & S5), S' as (S1' & S2' & S3' & S4' & S5').
  assert (Ty : g_type g' = g_type g).
  { destruct (g_has g BLOCK2) eqn:H; [rewrite (S5 eq_refl), S5' by (rewrite Hh; exact H); rewrite Hg by exact H; reflexivity|].
    destruct (S4 eq_refl) as [-> _]. destruct S4' as [-> _]; [rewrite Hh; exact H|reflexivity]. }
  assert (Ht : g_has_type g' = g_has_type g).
  { rewrite T', Hh. destruct (g_has g BLOCK2) eqn:H; [|symmetry; apply S4; reflexivity]. symmetry. apply R2. unfold received. unfold g_has in H. rewrite H. discriminate. }
  pose proof (Hh BLOCK1) as H1. pose proof (Hg BLOCK1) as G1. unfold g_has in H1, G1. unfold g_get in G1. cbn [g_block] in H1, G1. unfold received in R1. cbn [g_block] in R1.
  split; [exact Hh|]. split; [exact Hg|]. split; [exact Ty|]. split; [exact Ht|]. split; [intros X; congruence|]. split; [congruence|]. split; [congruence|]. split; [congruence|].
  split; [intros X; congruence|]. split.
  - unfold g_hasPI. rewrite Ty, H1, O'. destruct (blk_is_received (g_b1 g)); [reflexivity|]. specialize (R1 eq_refl). cbn [Offset_eqb orb]. rewrite andb_false_r.
    destruct (blk_is_received (g_b3 g)); [|reflexivity]. destruct (blk_offset (g_b3 g)); try reflexivity. exfalso. apply R1; [discriminate|reflexivity].
  - unfold g_getPI. rewrite H1, O'. destruct (blk_is_received (g_b1 g)); [apply G1; reflexivity|]. specialize (R1 eq_refl). cbn [Offset_eqb]. rewrite andb_false_r.
    destruct (blk_is_received (g_b3 g)); [|reflexivity]. destruct (blk_offset (g_b3 g)); try reflexivity. exfalso. apply R1; [discriminate|reflexivity].
Qed.

Lemma nothing_shown : forall env o now c g, o_output_type o = OutJSON -> free_shape g -> (forall n, received g n = None) -> exists c', processGroup env o now c g 0 = Ok (c', None).
Proof.
  intros env o now c g OJ (S & _ & _ & _) E.
  assert (H : forall n, g_has g n = false) by (intros n; specialize (E n); unfold received in E; unfold g_has; destruct (blk_is_received (g_block g n)); congruence).
  rewrite process_eq. cbv zeta. rewrite OJ. set (g1 := prepared o now c g 0).
  assert (B : forall n, g_has g1 n = false) by (intros n; unfold g1, g_has; rewrite prepared_block; apply H).
  assert (Em : g_isEmpty g1 = true) by (unfold g_isEmpty; rewrite !B; reflexivity).
  assert (Ty : g_type g1 = GroupType_default) by (unfold g1; rewrite prepared_type; cbn [N.eqb]; apply S, H).
  assert (U : exists st, updateAndPrint env o (tuned c g1) g1 = Ok (st, None)).
  { unfold updateAndPrint. cbv zeta. rewrite Ty, Em. cbn [GroupType_default gt_version Version_eqb]. destruct (negb (st_has_pi _)); [eexists; reflexivity|].
    destruct (o_streams o); cbn [bind jset]; destruct (_ && _); eexists; reflexivity. }
  destruct U as [st ->]. cbn [bind]. eexists. reflexivity.
Qed.

(* --- groups of which nothing was received --- *)
Definition near (c c0 : Channel) : Prop := c = c0 \/ (st_has_pi (ch_station c0) = true /\ exists b,
  c = mkChannel (ch_which_channel c0) (ch_cached_pi c0) (ch_block_stream c0) (set_had_pi (ch_station c0) b) (ch_bler_average c0) (ch_last_group_rx_time c0)).

Lemma prepared_as : forall o now c g, o_timestamp o = false -> o_bler o = false -> prepared o now c g 0 = g_setDataStream g 0.
Proof. intros o now c g T B. unfold prepared, streamed, measured, stamped. rewrite T, B. reflexivity. Qed.

Lemma missed_near : forall env o now c c0 g, o_output_type o = OutJSON -> o_timestamp o = false -> o_bler o = false -> bit_shape g -> something (now, g, 0) = false -> near c c0 ->
  exists c', processGroup env o now c g 0 = Ok (c', None) /\ near c' c0.
Proof.
  intros env o now c c0 g OJ OT OB ((_ & _ & _ & S4 & _) & _) E R.
  unfold something in E. cbn [fst snd] in E. apply negb_false_iff in E. assert (E' := E). unfold g_isEmpty, g_has in E'. cbn [g_block] in E'. apply negb_true_iff in E'. rewrite !orb_false_iff in E'. destruct E' as (((E1 & E2) & E3) & E4).
  destruct (S4 E2) as [Ty Ht]. rewrite process_eq. cbv zeta. rewrite OJ, prepared_as by assumption. unfold next_avg, stamp_time. rewrite OB, OT. cbn [andb].
  assert (P : g_hasPI (g_setDataStream g 0) = false) by (unfold g_hasPI; cbn; rewrite E1, E3, andb_false_r; reflexivity).
  unfold tuned, next_pi. rewrite P.
  assert (Em : g_isEmpty (g_setDataStream g 0) = true) by exact E.
  assert (Vt : gt_version (g_type (g_setDataStream g 0)) = VA) by (cbn; rewrite Ty; reflexivity).
  unfold updateAndPrint. cbv zeta. rewrite P, Em, Vt. cbn [Version_eqb negb andb].
  destruct c as [cw cp cb cs ca cl]. cbn [ch_which_channel ch_cached_pi ch_block_stream ch_station ch_bler_average ch_last_group_rx_time].
  destruct (st_has_pi cs) eqn:Hp; cbn [negb bind]; [|eexists; split; [reflexivity|exact R]].
  assert (J : exists j, (if o_streams o then jset ["stream"%string] (JN (g_data_stream (g_setDataStream g 0))) (JObj []) else Ok (JObj [])) = Ok j) by (destruct (o_streams o); eexists; reflexivity).
  destruct J as [j ->]. cbn [bind]. destruct (st_last_group_had_pi cs); cbn [negb bind]; (eexists; split; [reflexivity|]); [|exact R].
  right. destruct R as [<-|(Q & b & X)]; [split; [exact Hp|exists false; reflexivity]|]. split; [exact Q|]. exists false. injection X as -> -> -> -> -> ->. reflexivity.
Qed.

Lemma had_pi_forgotten : forall env o st b g, g_hasPI g = true -> st_has_pi st = true -> gt_version (g_type g) <> VC -> updateAndPrint env o (set_had_pi st b) g = updateAndPrint env o st g.
Proof.
  intros env o st b g P H V. unfold updateAndPrint. cbv zeta. rewrite P. change (st_has_pi (set_had_pi st b)) with (st_has_pi st). rewrite H. cbn [negb andb].
  destruct (gt_version (g_type g)); try (exfalso; apply V; reflexivity); reflexivity.
Qed.

Lemma near_step : forall env o now c c0 g, o_output_type o = OutJSON -> o_timestamp o = false -> o_bler o = false -> bit_shape g -> near c c0 -> (c = c0 \/ received g BLOCK1 <> None) ->
  processGroup env o now c g 0 = processGroup env o now c0 g 0.
Proof.
  intros env o now c c0 g OJ OT OB ((_ & _ & _ & S4 & S5) & _) R [->|B1]; [reflexivity|]. destruct R as [->|(Q & b & ->)]; [reflexivity|].
  assert (V : gt_version (g_type (g_setDataStream g 0)) <> VC).
  { cbn. destruct (g_has g BLOCK2); [rewrite S5 by reflexivity; unfold GroupType_of; cbn [gt_version]; match goal with |- (if ?q then _ else _) <> _ => destruct q end; discriminate|destruct S4 as [-> _]; [reflexivity|discriminate]]. }
  assert (P : g_hasPI (g_setDataStream g 0) = true).
  { unfold g_hasPI. unfold received in B1. cbn [g_block] in B1. cbn in V |- *. destruct (blk_is_received (g_b1 g)); [|congruence]. destruct (gt_version (g_type g)); try reflexivity. exfalso; apply V; reflexivity. }
  rewrite !process_eq. cbv zeta. rewrite OJ, !prepared_as by assumption. unfold next_avg, stamp_time. rewrite OB, OT. cbn [andb].
  unfold tuned, next_pi. rewrite P. cbn [ch_which_channel ch_cached_pi ch_block_stream ch_station ch_bler_average ch_last_group_rx_time].
  destruct (snd (pi_update (ch_cached_pi c0) (g_getPI (g_setDataStream g 0)))); try reflexivity; rewrite had_pi_forgotten by assumption; reflexivity.
Qed.

Lemma skipped : forall env o, o_output_type o = OutJSON -> o_timestamp o = false -> o_bler o = false -> forall tg c c0 c1 out,
  Forall (fun x => snd x = 0 /\ bit_shape (snd (fst x))) tg -> near c c0 ->
  (c = c0 \/ match tg with x :: _ => something x = true -> received (snd (fst x)) BLOCK1 <> None | [] => True end) ->
  (forall before e x after, tg = before ++ e :: x :: after -> something e = false -> something x = true -> received (snd (fst x)) BLOCK1 <> None) ->
  run_groups env o c tg = Ok (c1, out) ->
  exists c2 out2, run_groups env o c0 (filter something tg) = Ok (c2, out2) /\ shown out2 = shown out.
Proof.
  intros env o OJ OT OB tg. induction tg as [|[[now g] w] tg IH]; intros c c0 c1 out F R N0 N E.
  - cbn [run_groups] in E. injection E as _ <-. exists c0, []. split; reflexivity.
  - inversion F as [|? ? [W Sh] F']; subst. cbn [fst snd] in W, Sh. subst w. cbn [run_groups] in E. cbn [filter].
    destruct (something (now, g, 0)) eqn:So.
    + assert (Ep : processGroup env o now c g 0 = processGroup env o now c0 g 0).
      { apply near_step; try assumption. destruct N0 as [->|N0]; [left; reflexivity|right; apply N0; reflexivity]. }
      rewrite Ep in E. cbn [run_groups]. destruct (processGroup env o now c0 g 0) as [[c' l]| |]; cbn [bind] in E |- *; try discriminate.
      destruct (run_groups env o c' tg) as [[c3 o3]| |] eqn:E3; cbn [bind] in E; try discriminate. injection E as -> <-.
      destruct (IH c' c' c1 o3 F') as (c2 & out2 & Er & Eo); [left; reflexivity|left; reflexivity| |exact E3|].
      * intros before e x after Et. apply (N ((now, g, 0) :: before) e x after). rewrite Et. reflexivity.
      * rewrite Er. cbn [bind]. eexists. eexists. split; [reflexivity|]. unfold shown in *. cbn [flat_map]. rewrite Eo. reflexivity.
    + destruct (missed_near env o now c c0 g OJ OT OB Sh So R) as (c' & Ep & R'). rewrite Ep in E. cbn [bind] in E.
      destruct (run_groups env o c' tg) as [[c3 o3]| |] eqn:E3; cbn [bind] in E; try discriminate. injection E as -> <-.
      destruct (IH c' c0 c1 o3 F') as (c2 & out2 & Er & Eo); [exact R'| | |exact E3|].
      * right. destruct tg as [|x tg]; [exact I|]. intros Sx. apply (N [] (now, g, 0) x tg); [reflexivity|exact So|exact Sx].
      * intros before e x after Et. apply (N ((now, g, 0) :: before) e x after). rewrite Et. reflexivity.
      * exists c2, out2. split; [exact Er|]. rewrite Eo. reflexivity.
Qed.

Lemma filter_split : forall (A : Type) (f : A -> bool) l a x b, filter f l = a ++ x :: b -> exists a' b', l = a' ++ x :: b' /\ a = filter f a'.
Proof.
  intros A f l. induction l as [|y l IH]; intros a x b E; [destruct a; discriminate|]. cbn [filter] in E. destruct (f y) eqn:Fy.
  - destruct a as [|z a]; cbn [app] in E; injection E as -> E; [exists [], l; split; reflexivity|].
    destruct (IH a x b E) as (a' & b' & -> & ->). exists (z :: a'), b'. split; [reflexivity|]. cbn [filter]. rewrite Fy. reflexivity.
  - destruct (IH a x b E) as (a' & b' & -> & ->). exists (y :: a'), b'. split; [reflexivity|]. cbn [filter]. rewrite Fy. reflexivity.
Qed.

Lemma timed_app : forall (A : Type) (l m : list A) clock, timed clock (l ++ m) = timed clock l ++ timed (fun n => clock (length l + n)%nat) m.
Proof. intros A l m. induction l as [|x l IH]; intros clock; cbn [app timed length Nat.add]; [reflexivity|]. rewrite IH. reflexivity. Qed.
Lemma timed_snd : forall (A : Type) (l : list A) clock, map snd (timed clock l) = l.
Proof. intros A l. induction l as [|x l IH]; intros clock; cbn [timed map snd]; [reflexivity|]. rewrite IH. reflexivity. Qed.
Lemma run_app : forall env o gs gs' c, run_groups env o c (gs ++ gs') = ('(c1, o1) <- run_groups env o c gs ;; '(c2, o2) <- run_groups env o c1 gs' ;; Ok (c2, o1 ++ o2)).
Proof.
  intros env o gs gs'. induction gs as [|[[now g] w] gs IH]; intros c; cbn [app run_groups bind].
  - destruct (run_groups env o c gs') as [[c2 o2]|m|m]; reflexivity.
  - destruct (processGroup env o now c g w) as [[c1 l1]|m|m]; cbn [bind]; [|reflexivity|reflexivity]. rewrite IH.
    destruct (run_groups env o c1 gs) as [[c2 o2]|m|m]; cbn [bind]; [|reflexivity|reflexivity]. destruct (run_groups env o c2 gs') as [[c3 o3]|m|m]; reflexivity.
Qed.
Lemma lines_shown : forall ch out, Main.lines_of ch (shown out) = Main.lines_of ch out.
Proof. intros ch out. induction out as [|[l|] out IH]; [reflexivity| |exact IH]. cbn. f_equal. exact IH. Qed.
Lemma all_lines_of : forall ch out, all_lines (Main.lines_of ch out) = printed out.
Proof. intros ch out. induction out as [|[l|] out IH]; [reflexivity| |exact IH]. cbn. f_equal. exact IH. Qed.
Lemma lines_app : forall ch a b, Main.lines_of ch (a ++ b) = Main.lines_of ch a ++ Main.lines_of ch b.
Proof. intros ch a b. unfold Main.lines_of. apply flat_map_app. Qed.

Lemma flush_nothing : forall env o t c s b, ch_block_stream c = s :: repeat (BlockStream_init b) 3 -> flush env o t c = Ok (c, []).
Proof.
  intros env o t c s b E. unfold flush. cbn [flush_loop]. rewrite E. cbn [repeat].
  change (arr_get [s; BlockStream_init b; BlockStream_init b; BlockStream_init b] 1) with (Ok (BlockStream_init b)). cbn [bind].
  change (g_isEmpty (bst_current_group (BlockStream_init b))) with true. cbn [bind]. rewrite E. cbn [repeat].
  change (arr_get [s; BlockStream_init b; BlockStream_init b; BlockStream_init b] 2) with (Ok (BlockStream_init b)). cbn [bind].
  change (g_isEmpty (bst_current_group (BlockStream_init b))) with true. cbn [bind]. rewrite E. cbn [repeat].
  change (arr_get [s; BlockStream_init b; BlockStream_init b; BlockStream_init b] 3) with (Ok (BlockStream_init b)). cbn [bind].
  change (g_isEmpty (bst_current_group (BlockStream_init b))) with true. cbn [bind app]. reflexivity.
Qed.

(* Reading bits: the groups, and nothing at the end *)
Lemma ascii_run : forall env o clock t input c out, run_groups env o (Channel_new o 0) (bit_groups (BlockStream_init (o_use_fec o)) (timed clock (ascii_bits input))) = Ok (c, out) ->
  processASCIIBitsInput env o clock t input = Ok (EXIT_SUCCESS, Main.lines_of 0 out).
Proof.
  intros env o clock t input c out E. unfold processASCIIBitsInput. rewrite (run_bits_groups env o _ (Channel_new o 0) (BlockStream_init (o_use_fec o)) eq_refl); [|cbn; lia].
  rewrite E. cbn [bind].
  assert (St : ch_block_stream c = repeat (BlockStream_init (o_use_fec o)) 4).
  { change (repeat (BlockStream_init (o_use_fec o)) 4) with (ch_block_stream (Channel_new o 0)). revert E. generalize (Channel_new o 0) as c0. generalize (bit_groups (BlockStream_init (o_use_fec o)) (timed clock (ascii_bits input))) as gs. intros gs. revert out.
    induction gs as [|[[now g] w] gs IH]; intros out c0 E; cbn [run_groups] in E; [injection E as <- _; reflexivity|].
    destruct (processGroup env o now c0 g w) as [[c1 l1]| |] eqn:E1; cbn [bind] in E; try discriminate. destruct (run_groups env o c1 gs) as [[c2 o2]| |] eqn:E2; cbn [bind] in E; try discriminate.
    injection E as <- _. rewrite (IH _ _ E2). exact (process_streams env o now c0 g w c1 l1 E1). }
  match goal with |- context [flush env o t ?x] => assert (Sx : exists s, ch_block_stream x = s :: repeat (BlockStream_init (o_use_fec o)) 3) end.
  { destruct (timed clock (ascii_bits input)); [rewrite St; eexists; reflexivity|]. unfold streams_set, ch_set_stream. cbn [ch_block_stream]. rewrite St. eexists. reflexivity. }
  destruct Sx as [s Sx]. rewrite (flush_nothing _ _ _ _ _ _ Sx). cbn [bind]. rewrite app_nil_r, lines_shown. reflexivity.
Qed.

Lemma something_iff : forall n g w, something (n, g, w) = true <-> ~ missed g.
Proof.
  intros n g w. unfold something, g_isEmpty, g_has, missed. cbn [fst snd g_block]. rewrite negb_involutive. split.
  - intros H M. pose proof (M BLOCK1) as M1. pose proof (M BLOCK2) as M2. pose proof (M BLOCK3) as M3. pose proof (M BLOCK4) as M4. unfold received in *. cbn [g_block] in *.
    destruct (blk_is_received (g_b1 g)); [discriminate|]. destruct (blk_is_received (g_b2 g)); [discriminate|]. destruct (blk_is_received (g_b3 g)); [discriminate|]. destruct (blk_is_received (g_b4 g)); discriminate.
  - intros H. destruct (blk_is_received (g_b1 g) || blk_is_received (g_b2 g) || blk_is_received (g_b3 g) || blk_is_received (g_b4 g))%bool eqn:E; [reflexivity|].
    exfalso. apply H. rewrite !orb_false_iff in E. destruct E as (((E1 & E2) & E3) & E4). intros m. unfold received. destruct m; cbn [g_block]; [rewrite E1|rewrite E2|rewrite E3|rewrite E4]; reflexivity.
Qed.

Lemma over_groups : forall (P : Group -> Prop) tg gs, map (fun x : Z * Group * N => snd (fst x)) tg = gs -> Forall P gs -> Forall (fun x => P (snd (fst x))) tg.
Proof. intros P tg gs <- F. exact (proj1 (Forall_map _ _ _) F). Qed.

Lemma unchecked_more : forall h h' x, incl h h' -> unchecked h x -> unchecked h' x.
Proof.
  intros h h' x I (A & B & Q). split; [exact A|]. split; [exact B|].
  assert (J : forall y, In y (flat_map announcement h) -> In y (flat_map announcement h')) by (intros y Y; apply in_flat_map in Y; destruct Y as (z & Y1 & Y2); apply in_flat_map; exists z; split; [apply I, Y1|exact Y2]).
  destruct Q as [Q|[Q|Q]]; [left; exact Q|right; left; apply J, Q|right; right; apply J, Q].
Qed.

Lemma hex_recording : forall env o clock t input, host_ok env -> o_output_type o = OutJSON -> o_timestamp o = false -> o_bler o = false ->
  let gs := groups_after (o_use_fec o) [] (ascii_bits input) in
  Forall recorded gs ->
  (forall before e g after, gs = before ++ e :: g :: after -> missed e -> ~ missed g -> received g BLOCK1 <> None) ->
  (forall before g after, gs = before ++ g :: after -> unchecked (map (fun x => (x, 0)) before) (g, 0) -> received g BLOCK3 <> None /\ received g BLOCK4 <> None) ->
  exists rec items, processASCIIBitsInput env (with_output o OutHex) clock t input = Ok (EXIT_SUCCESS, rec) /\
    processASCIIBitsInput env o clock t input = Ok (EXIT_SUCCESS, items) /\
    forall clock', processHexInput env o clock' (text_file (all_lines rec)) = Ok (EXIT_SUCCESS, items).
Proof.
  intros env o clock t input H OJ OT OB gs Rc Ms U. unfold groups_after, state_after in gs. cbn [bst_run fst] in gs.
  set (tg := bit_groups (BlockStream_init (o_use_fec o)) (timed clock (ascii_bits input))).
  destruct (bit_groups_run (timed clock (ascii_bits input)) (BlockStream_init (o_use_fec o))) as [M W]. rewrite timed_snd in M. fold gs tg in M, W.
  assert (Sh : Forall bit_shape gs).
  { destruct (bst_run (BlockStream_init (o_use_fec o)) (ascii_bits input)) as [s' gs0] eqn:E. unfold gs. cbn [snd]. apply (stream_shapes _ _ _ _ E).
    split; [exact default_shape|]. split; [discriminate|]. intros; reflexivity. }
  apply (over_groups _ _ _ M) in Sh. apply (over_groups _ _ _ M) in Rc.
  assert (Rg : Forall received_group tg).
  { eapply Forall_impl; [|exact Sh]. intros [[n g] w] ((B & _) & N & _). unfold received_group. split; [exact B|].
    exact (conj (N BLOCK1) (conj (N BLOCK2) (conj (N BLOCK3) (N BLOCK4)))). }
  destruct (host_env env H) as [Ee _].
  assert (Bl : Forall (fun x => g_has_bler (snd (fst x)) = false) tg) by (eapply Forall_impl; [|exact Rg]; intros [[n g] w] X; apply X).
  set (oh := with_output o OutHex) in *.
  destruct (run_groups_good env oh tg (Channel_new oh 0) Ee (channel_new_ok oh 0) Bl) as ([ch outh] & Eh & _).
  destruct (run_groups_good env o tg (Channel_new o 0) Ee (channel_new_ok o 0) Bl) as ([c out] & E & _).
  exists (Main.lines_of 0 outh), (Main.lines_of 0 out). split; [apply (ascii_run env oh clock t input ch outh); exact Eh|]. split; [apply (ascii_run env o clock t input c out); exact E|].
  intros clock'. rewrite all_lines_of. unfold processHexInput, text_file.
  destruct (hex_read_back env oh o clock' tg (Channel_new oh 0) ch outh eq_refl Eh Rg) as (gs' & last & Er & F2 & L0 & L1).
  { eapply Forall_impl; [|exact W]. cbn. intros x ->. lia. }
  { intros X. cbn in X. congruence. }
  rewrite Er. assert (Fr : Forall free_shape (gs' ++ [last])) by (rewrite <- Er; unfold read_hex_input; apply hex_free).
  apply Forall_app in Fr. destruct Fr as [Fr Fl]. inversion Fl as [|? ? Fl1 _]; subst.
  rewrite timed_app, map_app. cbn [timed map snd]. rewrite L0.
  set (hg := map (fun x => (x, g_data_stream (snd x))) (timed clock' gs')).
  destruct (skipped env o OJ OT OB tg (Channel_new o 0) (Channel_new o 0) c out) as (c2 & out2 & E2 & Eo); [|left; reflexivity|left; reflexivity| |exact E|].
  { clear - W Sh. rewrite Forall_forall in *. intros x I. split; [apply W, I|apply Sh, I]. }
  { intros before [[ne e] we] [[nx x] wx] after Et Se Sx. cbn [fst snd]. apply something_iff in Sx.
    apply (Ms (map (fun x => snd (fst x)) before) e x (map (fun x => snd (fst x)) after)); [rewrite <- M, Et, map_app; reflexivity| |exact Sx].
    intros n. destruct (received e n) eqn:Y; [|reflexivity]. exfalso. assert (Z : something (ne, e, we) = true) by (apply something_iff; intros Mi; rewrite Mi in Y; discriminate). congruence. }
  set (tf := filter something tg) in *.
  assert (Sub : incl tf tg) by apply incl_filter.
  pose proof (incl_Forall Sub Sh) as Sh2. pose proof (incl_Forall Sub Rc) as Rc2. pose proof (incl_Forall Sub W) as W2. pose proof (incl_Forall Sub Rg) as Rg2.
  assert (Al : Forall2 (alike_reception o) tf hg).
  { unfold hg. clearbody tf. change (Forall2 (fun x g => g_data_stream g = snd x /\ (forall n, received g n = received (snd (fst x)) n)) tf gs') in F2.
    clear - Rc2 Sh2 F2 Fr OT OB W2. revert Rc2 Sh2 W2 clock'. induction F2 as [|[[n g] w] g' tf gs' [D X] _ IH]; intros Rc Sh W clock'; cbn [timed map snd fst] in *; [constructor|].
    inversion Rc; subst. inversion Sh; subst. inversion Fr; subst. inversion W as [|? ? W1 W2]; subst. cbn [snd fst] in *. subst.
    constructor; [|apply IH; assumption]. split; [intros Y; congruence|]. split; [cbn; congruence|]. cbn [fst snd]. apply recorded_alike; assumption. }
  rewrite run_app. assert (Rn : run_groups env o (Channel_new o 0) hg = Ok (c2, out2)).
  { rewrite <- E2. apply (al_run env o tf hg []); try assumption; [apply channel_new_ok|exists []; split; [intros x []|reflexivity]| |].
    - eapply Forall_impl; [|exact Sh2]. intros [[n g] w] ((_ & _ & _ & S4 & _) & _). cbn [fst snd]. intros _ T. change (blk_is_received (g_b2 g)) with (g_has g BLOCK2).
      destruct (g_has g BLOCK2) eqn:Q; [reflexivity|]. cbn [fst snd] in S4. destruct (S4 Q). congruence.
    - intros gs1 x gs2 Et Un. apply filter_split in Et. destruct Et as (a & b & Et & ->). destruct x as [[n g] w]. cbn [fst snd] in *. assert (w = 0) by (rewrite Et in W; apply Forall_app in W; destruct W as [_ W]; inversion W; assumption). subst w.
      destruct (U (map (fun x => snd (fst x)) a) g (map (fun x => snd (fst x)) b)) as [U3 U4].
      + rewrite <- M, Et, map_app. reflexivity.
      + cbn [app] in Un. assert (Q : groups_of a = map (fun x => (x, 0)) (map (fun x => snd (fst x)) a)).
        { rewrite map_map. unfold groups_of. rewrite Et in W. apply Forall_app in W. destruct W as [W _]. clear - W. induction W as [|[[n g] w] gs1 Hw _ IH]; [reflexivity|]. cbn [map fst snd] in *. rewrite Hw. f_equal. exact IH. }
        rewrite <- Q. eapply unchecked_more; [|exact Un]. unfold groups_of. apply incl_map, incl_filter.
      + unfold received in U3, U4. cbn [g_block] in U3, U4. destruct (blk_is_received (g_b3 g)), (blk_is_received (g_b4 g)); try congruence. split; reflexivity. }
  rewrite Rn. cbn [bind run_groups]. destruct (nothing_shown env o (clock' (length gs' + 0)%nat) c2 last OJ Fl1 L1) as [c' Ec]. rewrite Ec. cbn [bind]. rewrite lines_app. cbn [Main.lines_of flat_map]. rewrite app_nil_r.
  rewrite <- (lines_shown 0 out2), Eo, lines_shown. reflexivity.
Qed.
