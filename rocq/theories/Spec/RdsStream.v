(* Independent specification of the RDS bit stream: words as bit lists, transmitted groups,
   and what a delivered group must look like to the user. *)
From Verif.Model Require Import Base Group.
From Verif.Spec Require Import RdsCode.

(* The n low bits of w, most significant first: the order of transmission. *)
Fixpoint bits_msb (n : nat) (w : N) : list bool :=
  match n with
  | O => []
  | S k => N.testbit w (N.of_nat k) :: bits_msb k w
  end.

Definition block_bits (w : N) : list bool := bits_msb 26 w.

(* A group to transmit: four 16-bit information words. *)
Record TxGroup := mkTx { tx1 : N; tx2 : N; tx3 : N; tx4 : N }.
Definition tx_ok (t : TxGroup) : Prop :=
  tx1 t < 2 ^ 16 /\ tx2 t < 2 ^ 16 /\ tx3 t < 2 ^ 16 /\ tx4 t < 2 ^ 16.

(* Bit 11 of the second block is the version flag B0; version B groups use offset C' in block 3. *)
Definition third_offset (t : TxGroup) : Offset :=
  if N.testbit (tx2 t) 11 then OffCprime else OffC.

Definition tx_words (t : TxGroup) : list N :=
  [tx_block OffA (tx1 t); tx_block OffB (tx2 t); tx_block (third_offset t) (tx3 t);
   tx_block OffD (tx4 t)].

Definition tx_bits (t : TxGroup) : list bool := flat_map block_bits (tx_words t).

(* The words on the air, each xor an error pattern. *)
Definition rx_words (t : TxGroup) (e : N * N * N * N) : list N :=
  let '(e1, e2, e3, e4) := e in
  [N.lxor (tx_block OffA (tx1 t)) e1; N.lxor (tx_block OffB (tx2 t)) e2;
   N.lxor (tx_block (third_offset t) (tx3 t)) e3; N.lxor (tx_block OffD (tx4 t)) e4].

Definition rx_bits (te : TxGroup * (N * N * N * N)) : list bool :=
  flat_map block_bits (rx_words (fst te) (snd te)).

(* What the receiver must hand over: all four blocks with the transmitted contents, the group
   type of the second block, and an error flag exactly on the blocks in [bad]. *)
Definition delivered (t : TxGroup) (bad : bool * bool * bool * bool) (g : Group) : Prop :=
  let '(f1, f2, f3, f4) := bad in
  (g_has g BLOCK1 = true /\ g_get g BLOCK1 = tx1 t /\ blk_had_errors (g_b1 g) = f1) /\
  (g_has g BLOCK2 = true /\ g_get g BLOCK2 = tx2 t /\ blk_had_errors (g_b2 g) = f2) /\
  (g_has g BLOCK3 = true /\ g_get g BLOCK3 = tx3 t /\ blk_had_errors (g_b3 g) = f3) /\
  (g_has g BLOCK4 = true /\ g_get g BLOCK4 = tx4 t /\ blk_had_errors (g_b4 g) = f4) /\
  g_has_type g = true /\
  gt_number (g_type g) = tx2 t / 4096 /\
  gt_version (g_type g) = (if N.testbit (tx2 t) 11 then VB else VA).

(* Number of true flags. *)
Fixpoint count_true (l : list bool) : N :=
  match l with
  | [] => 0
  | b :: r => (if b then 1 else 0) + count_true r
  end.

(* The last n elements of a list. *)
Definition lastn {A : Type} (n : nat) (l : list A) : list A := skipn (length l - n) l.

(* The number written by a bit list, first bit most significant. *)
Definition bits_value (l : list bool) : N := fold_left (fun a (b : bool) => 2 * a + (if b then 1 else 0)) l 0.

(* The last 26 bits received (missing bits count as zero). *)
Definition window (bits : list bool) : N := bits_value (lastn 26 bits).

(* Which offset is a 26-bit word a transmitted block of?  Recomputes the block from its
   information word; no syndromes involved. *)
Definition recognise (w : N) : Offset :=
  match find (fun o => w =? tx_block o (N.shiftr w 10)) [OffA; OffB; OffC; OffCprime; OffD] with
  | Some o => o
  | None => OffInvalid
  end.

(* Place of an offset in the cycle A, B, C or C', D. *)
Definition place (o : Offset) : N :=
  match o with OffA => 0 | OffB => 1 | OffC | OffCprime => 2 | OffD => 3 | OffInvalid => 0 end.

(* The offset expected after one; C stands for "C or C'". *)
Definition following (o : Offset) : Offset :=
  match o with OffA => OffB | OffB => OffC | OffC | OffCprime => OffD | OffD | OffInvalid => OffA end.

(* With C expected, C' is as good. *)
Definition settle (expected seen : Offset) : Offset :=
  match expected, seen with OffC, OffCprime => OffCprime | _, _ => expected end.

(* Error flags of successive blocks, the first of which is expected to have offset [e]. *)
Fixpoint err_flags (e : Offset) (ws : list N) : list bool :=
  match ws with
  | [] => []
  | w :: r =>
    let e' := settle e (recognise w) in
    negb (Offset_eqb (recognise w) e') :: err_flags (following e') r
  end.

(* Offset expected after successive blocks. *)
Fixpoint expect_after (e : Offset) (ws : list N) : Offset :=
  match ws with
  | [] => e
  | w :: r => expect_after (following (settle e (recognise w))) r
  end.

(* Positions t with lo < t < hi at which the last 26 bits happen to form a valid block. *)
Definition phantoms (bits : list bool) (lo hi : nat) : list nat :=
  filter (fun t => match recognise (window (firstn t bits)) with OffInvalid => false | _ => true end)
         (seq (S lo) (hi - S lo)).
