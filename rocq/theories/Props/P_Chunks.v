(* C114: which bytes of a transmitted file a checksum is about. *)
From Verif.Model Require Import Base Util Rft.
From Verif.Proofs Require Import Tac.

Local Open Scope N_scope.
Local Open Scope list_scope.

(* The checksum of a mode and an address covers the byte at position b of a file of this size. *)
Definition covers (mode address size b : N) : Prop :=
  forall crc received, let c := mkChunkCRC mode address crc received in
  getByteAddress c size <= b < getByteAddress c size + getChunkLength c size.
(* The length of the chunks that the modes 1 to 6 stand for; and the largest file, 32768 segments of 5 bytes *)
Definition chunk_bytes (mode : N) : N := 40 * 2 ^ mode.
Definition largest_file : N := 32768 * 5.

Lemma shift8 : forall m, m <= 6 -> 5 * N.shiftl 8 m = chunk_bytes m.
Proof. intros m _. unfold chunk_bytes. rewrite N.shiftl_mul_pow2. lia. Qed.
Lemma chunk_small : forall m, m <= 6 -> 0 < chunk_bytes m <= 2560.
Proof.
  intros m H. assert (X : m = 0 \/ m = 1 \/ m = 2 \/ m = 3 \/ m = 4 \/ m = 5 \/ m = 6) by lia. unfold chunk_bytes.
  destruct X as [->|[->|[->|[->|[->|[->| ->]]]]]]; cbn; lia.
Qed.
(* The mode that counts *)
Lemma actual : forall mode a crc r size, 0 < mode <= 7 -> exists m, 0 < m <= 6 /\ (mode <> 7 -> m = mode) /\ getChunkLength (mkChunkCRC mode a crc r) size = chunk_bytes m /\
  getByteAddress (mkChunkCRC mode a crc r) size = u32 (a * chunk_bytes m) /\ m = getActualMode (mkChunkCRC mode 0 0 false) size.
Proof.
  intros mode a crc r size H. exists (getActualMode (mkChunkCRC mode 0 0 false) size).
  unfold getByteAddress, getChunkLength, getActualMode, kCRCModeEntireFile, kCRCModeAuto. cbn [crc_mode crc_address_raw].
  assert (Z : (mode =? 0) = false) by lia. rewrite Z.
  assert (B : 0 < (if mode =? 7 then if size <=? 40960 then 1 else if size <=? 81920 then 2 else 3 else mode) <= 6).
  { destruct (N.eqb_spec mode 7); [destruct (size <=? 40960); [|destruct (size <=? 81920)]; lia|lia]. }
  split; [exact B|]. split; [intros N7; destruct (N.eqb_spec mode 7); [contradiction|reflexivity]|].
  rewrite !shift8 by lia. repeat split.
Qed.

(* The checksums of a mode share the file out among themselves: every byte is covered by the checksum of
   exactly one address. *)
Theorem C114_every_byte_in_one_chunk : forall mode size b, mode <= 7 -> size <= largest_file -> b < size ->
  exists a, covers mode a size b /\ forall a', 0 < mode -> a' < 65536 -> covers mode a' size b -> a' = a.
Proof.
  intros mode size b Hm Hs Hb. unfold largest_file in Hs. destruct (N.eq_dec mode 0) as [->|Hz].
  { exists 0. split; [|lia]. intros crc r. cbn. lia. }
  assert (M : 0 < mode <= 7) by lia. destruct (actual mode 0 0 false size M) as (m & Hm1 & _ & _ & _ & Em). pose proof (chunk_small m ltac:(lia)) as L.
  assert (D : forall a, a < 65536 -> u32 (a * chunk_bytes m) = a * chunk_bytes m).
  { intros a Ha. unfold u32. apply N.mod_small. nia. }
  pose proof (N.div_mod b (chunk_bytes m) ltac:(lia)) as X. pose proof (N.mod_lt b (chunk_bytes m) ltac:(lia)) as Y.
  assert (Q : b / chunk_bytes m < 65536).
  { apply N.div_lt_upper_bound; [lia|]. assert (80 <= chunk_bytes m); [|nia]. unfold chunk_bytes. assert (2 ^ 1 <= 2 ^ m) by (apply N.pow_le_mono_r; lia). change (2 ^ 1) with 2 in *. lia. }
  exists (b / chunk_bytes m). split.
  - intros crc r. cbv zeta. destruct (actual mode (b / chunk_bytes m) crc r size M) as (m' & _ & _ & El & Ea & Em'). assert (m' = m) as -> by congruence.
    rewrite El, Ea, D by exact Q. nia.
  - intros a' _ Ha C. specialize (C 0 false). cbv zeta in C. destruct (actual mode a' 0 false size M) as (m' & _ & _ & El & Ea & Em'). assert (m' = m) as -> by congruence.
    rewrite El, Ea, D in C by exact Ha. destruct C as [C1 C2]. apply (N.div_unique b (chunk_bytes m) a' (b - a' * chunk_bytes m)); lia.
Qed.
Print Assumptions C114_every_byte_in_one_chunk.

(* Mode 0: one checksum for the file, from its beginning to its end.  Modes 1 to 6: chunks of the length of
   the mode, one after the other. *)
Theorem C114_position_and_length : forall mode a crc r size, a < 65536 ->
  let c := mkChunkCRC mode a crc r in
  (mode = 0 -> getByteAddress c size = 0 /\ getChunkLength c size = size) /\
  (0 < mode <= 6 -> getByteAddress c size = a * chunk_bytes mode /\ getChunkLength c size = chunk_bytes mode).
Proof.
  intros mode a crc r size Ha c. split; [intros ->; split; reflexivity|]. intros M. subst c.
  destruct (actual mode a crc r size ltac:(lia)) as (m & _ & Em & El & Ea & _). assert (m = mode) as -> by (apply Em; lia).
  rewrite El, Ea. split; [|reflexivity]. unfold u32. apply N.mod_small. pose proof (chunk_small mode ltac:(lia)). nia.
Qed.
Print Assumptions C114_position_and_length.

(* Mode 7: of the chunk lengths, the shortest with which the 512 addresses there are suffice for the file. *)
Theorem C114_automatic_is_the_shortest : forall a crc r size, size <= largest_file ->
  exists m, 1 <= m <= 6 /\ getChunkLength (mkChunkCRC 7 a crc r) size = chunk_bytes m /\
    size <= 512 * chunk_bytes m /\ forall m', 1 <= m' -> size <= 512 * chunk_bytes m' -> m <= m'.
Proof.
  intros a crc r size Hs. unfold largest_file in Hs.
  destruct (actual 7 a crc r size ltac:(lia)) as (m & Hm & _ & El & _ & Em). exists m. split; [lia|]. split; [exact El|].
  unfold getActualMode, kCRCModeAuto in Em. cbn [crc_mode] in Em. change (7 =? 7) with true in Em.
  assert (G : forall m', 1 <= m' -> m' < m -> chunk_bytes m' <= 20 * 2 ^ m).
  { intros m' H1 H2. unfold chunk_bytes. assert (2 ^ (m' + 1) <= 2 ^ m) by (apply N.pow_le_mono_r; lia). rewrite N.pow_add_r in H. change (2 ^ 1) with 2 in H. lia. }
  destruct (size <=? 40960) eqn:E1; [|destruct (size <=? 81920) eqn:E2]; subst m.
  - split; [change (chunk_bytes 1) with 80; lia|]. intros m' H1 _. exact H1.
  - split; [change (chunk_bytes 2) with 160; lia|]. intros m' H1 H2. destruct (N.le_gt_cases 2 m') as [X|X]; [exact X|]. specialize (G m' H1 X). change (20 * 2 ^ 2) with 80 in G. lia.
  - split; [change (chunk_bytes 3) with 320; lia|]. intros m' H1 H2. destruct (N.le_gt_cases 3 m') as [X|X]; [exact X|]. specialize (G m' H1 X). change (20 * 2 ^ 3) with 160 in G. lia.
Qed.
Print Assumptions C114_automatic_is_the_shortest.

(* Byte 100,000 of a file of 150,000 bytes is in the chunk with address 312, from byte 99,840 on. *)
Example C114_case : 150000 <= largest_file /\ covers 7 312 150000 100000 /\ ~ covers 7 311 150000 100000 /\ covers 1 1250 150000 100000.
Proof.
  repeat split; try (cbn; lia). intros C. specialize (C 0 false). cbn in C. lia.
Qed.
