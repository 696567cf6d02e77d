(* Vocabulary for statements about whole receptions: a receiver fed a list of bits from power-on. *)
From Verif.Model Require Import Base Group BlockSync.
From Verif.Spec Require Import RdsCode RdsStream.

(* The receiver after [bits]; whether it is then in sync; the groups it hands over during [more]. *)
Definition state_after (fec : bool) (bits : list bool) : BlockStream :=
  fst (bst_run (BlockStream_init fec) bits).
Definition in_sync_after (fec : bool) (bits : list bool) : bool :=
  bst_is_in_sync (state_after fec bits).
Definition groups_after (fec : bool) (bits more : list bool) : list Group :=
  snd (bst_run (state_after fec bits) more).

(* Bit b, received after [pre], is the one that brings the receiver into sync. *)
Definition acquires (fec : bool) (pre : list bool) (b : bool) : Prop :=
  bst_is_in_sync (state_after fec pre) = false /\
  bst_is_in_sync (state_after fec (pre ++ [b])) = true.

(* Errors a block may suffer and still be usable: none, or (with error correction) one bit or two
   adjacent bits. *)
Definition fixable (fec : bool) (e : N) : Prop := e = 0 \/ (fec = true /\ short_burst e).

(* Which of four error patterns are not empty. *)
Definition bad4 (e : N * N * N * N) : bool * bool * bool * bool :=
  let '(e1, e2, e3, e4) := e in
  (negb (e1 =? 0), negb (e2 =? 0), negb (e3 =? 0), negb (e4 =? 0)).

(* A transmitted group with tolerable errors.  Offset C' blocks are never corrected (see the
   finding C59), so they must arrive clean. *)
Definition rx_ok (fec : bool) (te : TxGroup * (N * N * N * N)) : Prop :=
  let '(t, (e1, e2, e3, e4)) := te in
  tx_ok t /\ fixable fec e1 /\ fixable fec e2 /\ fixable fec e3 /\ fixable fec e4 /\
  (third_offset t = OffCprime -> e3 = 0).

Definition all_words (tes : list (TxGroup * (N * N * N * N))) : list N :=
  flat_map (fun te => rx_words (fst te) (snd te)) tes.

(* The error budget: starting from the flags h, no block of fl brings the number of flags among
   the last 50 above 42. *)
Definition kept (h : list bool) (fl : list bool) : Prop :=
  forall k, (k <= length fl)%nat -> count_true (lastn 50 (h ++ firstn k fl)) <= 42.

(* Which block ends at bit position t. *)
Definition seen_at (bits : list bool) (t : nat) : Offset := recognise (window (firstn t bits)).

(* Valid blocks end at t1 and t2, a multiple k <= 6 of 26 bits apart (modulo the 32-bit position
   counter), and their offsets are k steps apart in the cycle A, B, C, D. *)
Definition in_rhythm (bits : list bool) (t1 t2 : nat) : Prop :=
  seen_at bits t1 <> OffInvalid /\ seen_at bits t2 <> OffInvalid /\
  exists k, k <= 6 /\ N.of_nat (t2 - t1) mod 2 ^ 32 = 26 * k /\
    place (seen_at bits t2) = (place (seen_at bits t1) + k) mod 4.

(* The offsets that may stand in each of the four places of a group, and the words there. *)
Definition own_offset (w3 : N) (n : blockNumber) : Offset :=
  match n with BLOCK1 => OffA | BLOCK2 => OffB | BLOCK3 => settle OffC (recognise w3) | BLOCK4 => OffD end.
Definition word_of (w1 w2 w3 w4 : N) (n : blockNumber) : N :=
  match n with BLOCK1 => w1 | BLOCK2 => w2 | BLOCK3 => w3 | BLOCK4 => w4 end.
