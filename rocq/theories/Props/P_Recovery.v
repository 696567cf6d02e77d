(* C105: the receiver recovers from any disturbance. *)
From Verif.Model Require Import Base Util Group BlockSync.
From Verif.Spec Require Import RdsCode RdsStream Reception Recovery.
From Verif.Proofs Require Import Tac Syndrome Ring BlockSyncP BlockSyncR BlockSyncT BlockSyncE BlockSyncS.

(* bits0: whatever was received before; ts0: 14 groups received without error (1.2 seconds), in which at most
   7 stretches of 26 bits look like a block without being one, and none of these continues a rhythm. *)
Theorem C105_recovers_from_anything : forall fec bits0 ts0 ts, length ts0 = 14%nat -> Forall tx_ok ts0 -> Forall tx_ok ts ->
  let bits := bits0 ++ flat_map tx_bits ts0 in
  (length (chance_blocks bits (length bits0)) <= 7)%nat -> ~ chance_rhythm bits (length bits0) ->
  Forall2 (fun t g => delivered t (false, false, false, false) g) ts (groups_after fec bits (flat_map tx_bits ts)) /\
  in_sync_after fec (bits ++ flat_map tx_bits ts) = true.
Proof. exact recovery. Qed.
Print Assumptions C105_recovers_from_anything.

(* A disturbance: one bit is received twice.  Groups like those of a station *)
Definition station (k : N) : TxGroup := mkTx 0x6201 (0x0540 + k mod 4) (0xE20D + 37 * k) (0x4142 + 259 * k).
Definition stations (n : nat) : list TxGroup := map (fun k => station (N.of_nat k)) (seq 0 n).
Definition slipped : list bool := flat_map tx_bits (stations 3) ++ [true].

Lemma stations_ok : forall n, (n <= 100)%nat -> Forall tx_ok (stations n).
Proof.
  intros n H. apply Forall_forall. intros t Ht. apply in_map_iff in Ht. destruct Ht as (k & <- & Hk). apply in_seq in Hk.
  unfold tx_ok, station. cbn [tx1 tx2 tx3 tx4]. change (2 ^ 16) with 65536.
  pose proof (N.mod_upper_bound (N.of_nat k) 4 ltac:(discriminate)) as M. set (m := N.of_nat k mod 4) in *. clearbody m. lia.
Qed.

Lemma slipped_14 : chance_blocks (slipped ++ flat_map tx_bits (stations 14)) (length slipped) = [411; 743; 921; 1362; 1623; 1727]%nat.
Proof. rewrite chance_scan. vm_compute. reflexivity. Qed.

Example C105_case :
  let bits := slipped ++ flat_map tx_bits (stations 14) in
  in_sync_after true slipped = true /\ Forall tx_ok (stations 14) /\
  length (chance_blocks bits (length slipped)) = 6%nat /\ ~ chance_rhythm bits (length slipped).
Proof.
  cbv zeta. split; [vm_compute; reflexivity|]. split; [apply stations_ok; lia|]. split; [rewrite slipped_14; reflexivity|].
  apply no_rhythm; [vm_compute; reflexivity|]. rewrite slipped_14. vm_compute. reflexivity.
Qed.

(* Eleven groups are not enough: the receiver holds on to the slipped position for 43 blocks. *)
Theorem C105_eleven_groups_refuted :
  ~ (forall fec bits0 ts0, length ts0 = 11%nat -> Forall tx_ok ts0 ->
     let bits := bits0 ++ flat_map tx_bits ts0 in
     (length (chance_blocks bits (length bits0)) <= 7)%nat -> ~ chance_rhythm bits (length bits0) ->
     in_sync_after fec bits = true).
Proof.
  intros H. specialize (H true slipped (stations 11) eq_refl).
  assert (F : in_sync_after true (slipped ++ flat_map tx_bits (stations 11)) = false) by (vm_compute; reflexivity).
  assert (E : chance_blocks (slipped ++ flat_map tx_bits (stations 11)) (length slipped) = [411; 743; 921; 1362]%nat)
    by (rewrite chance_scan; vm_compute; reflexivity).
  rewrite H in F; [discriminate F| | |].
  - apply stations_ok. lia.
  - rewrite E. cbn [length]. lia.
  - apply no_rhythm; [vm_compute; reflexivity|]. rewrite E. vm_compute. reflexivity.
Qed.
Print Assumptions C105_eleven_groups_refuted.

(* The conditions are needed.  There are groups which, sent over and over, can be read in two ways: 14 bits
   further on there is another stream of valid groups. *)
Definition sent_group : TxGroup := mkTx 0x6CE9 0x03F3 0x66BE 0xCDCE.
Definition other_reading : TxGroup := mkTx 0x5B90 0xF166 0x8D2C 0x8A46.

(* A receiver that is in step with the other reading never finds the transmitted groups, however many are
   received without error. *)
Definition misled : list bool := flat_map tx_bits (stations 3) ++ skipn 14 (tx_bits sent_group).

Theorem C105_two_readings_refuted : forall fec n,
  Forall2 (fun t g => delivered t (false, false, false, false) g) (repeat other_reading (S n))
    (groups_after fec misled (flat_map tx_bits (repeat sent_group n) ++ firstn 14 (tx_bits sent_group))).
Proof.
  intros fec n. unfold misled.
  assert (B : forall fec, bst_is_in_sync (state_after fec (flat_map tx_bits (stations 3))) = true /\
    bst_num_bits_until_next_block (state_after fec (flat_map tx_bits (stations 3))) = 26 /\
    bst_expected_offset (state_after fec (flat_map tx_bits (stations 3))) = OffA /\
    groups_after fec (flat_map tx_bits (stations 3)) (skipn 14 (tx_bits sent_group)) = []).
  { intros []; vm_compute; repeat split. }
  destruct (B fec) as (B1 & B2 & B3 & B4). clear B.
  apply second_reading with (t' := other_reading).
  - vm_compute. repeat split.
  - symmetry. apply firstn_skipn.
  - vm_compute. reflexivity.
  - destruct (state_after_inv fec (flat_map tx_bits (stations 3))) as (I & RH & _).
    split; [exact I|]. split; [exact RH|]. split; assumption.
  - exact B3.
  - exact B4.
Qed.
Print Assumptions C105_two_readings_refuted.

(* And a receiver switched on during such a transmission never delivers anything: of the last four blocks it
   remembers, two belong to each reading, and it wants three in rhythm. *)
Theorem C105_never_in_sync_refuted : forall fec n,
  groups_after fec [] (flat_map tx_bits (repeat sent_group n)) = [].
Proof.
  intros fec n.
  assert (E : flat_map tx_bits (repeat sent_group n) = concat (repeat (tx_bits sent_group) n)).
  { induction n as [|n IH]; [reflexivity|]. cbn [repeat flat_map concat]. rewrite IH. reflexivity. }
  rewrite E. apply (never_at_all fec (tx_bits sent_group) 104).
  destruct fec; vm_compute; reflexivity.
Qed.
Print Assumptions C105_never_in_sync_refuted.

Example C105_case_two_readings : tx1 other_reading <> tx1 sent_group /\ tx_ok sent_group /\ in_sync_after true misled = true.
Proof. split; [discriminate|]. split; [vm_compute; repeat split|vm_compute; reflexivity]. Qed.
