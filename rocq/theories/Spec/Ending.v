(* The end of the input. *)
From Verif.Model Require Import Base Group BlockSync Options Station Channel.
From Verif.Spec Require Import RdsCode RdsStream Reception JsonText Session.

(* After sync was acquired and any number of groups came in, the bits end when k blocks of group t have
   been received, and perhaps a part of the next block. *)
Definition ends_within (fec : bool) (bits : list bool) (t : TxGroup) (k : nat) : Prop :=
  exists pre b ws0 tes e l,
    bits = (pre ++ [b] ++ flat_map block_bits ws0 ++ flat_map rx_bits tes ++ flat_map block_bits (firstn k (rx_words t e)) ++ l)%list /\
    (k < 4)%nat /\ (length l < 26)%nat /\ acquires fec pre b /\ Forall (fun w => w < 2 ^ 26) ws0 /\ Forall (rx_ok fec) tes /\ rx_ok fec (t, e) /\
    let first := recognise (window (pre ++ [b])) in
    kept [false] (err_flags (following first) (ws0 ++ all_words tes ++ firstn k (rx_words t e))) /\ expect_after (following first) ws0 = OffA.

(* The first k blocks of group t and no others *)
Definition sent_word (t : TxGroup) (n : blockNumber) : N :=
  match n with BLOCK1 => tx1 t | BLOCK2 => tx2 t | BLOCK3 => tx3 t | BLOCK4 => tx4 t end.
Definition block_index (n : blockNumber) : nat :=
  match n with BLOCK1 => 0 | BLOCK2 => 1 | BLOCK3 => 2 | BLOCK4 => 3 end.
Definition first_blocks (t : TxGroup) (k : nat) (g : Group) : Prop :=
  forall n, if (block_index n <? k)%nat then g_has g n = true /\ g_get g n = sent_word t n else g_has g n = false.

(* What is left of a data stream at the end of the input *)
Definition left_over (fec : bool) (bits : list bool) (og : option Group) : Prop :=
  forall t k, ends_within fec bits t k ->
    match og with Some g => (0 < k)%nat /\ first_blocks t k g | None => k = 0%nat end.
Definition given (now : Z) (w : N) (og : option Group) : list call :=
  match og with Some g => [Group_in now g w] | None => [] end.

(* What the program does with a channel while it reads audio ... *)
Definition while_reading (x : call) : Prop :=
  match x with Bits_in _ _ _ _ => True | Reset_pi => True | _ => False end.
(* ... and these are the lines of a channel that was also told that the input is at its end *)
Definition ended (env : Env) (o : Options) (now : Z) (ch : N) (lines : list bytes) : Prop :=
  exists calls c, Forall possible calls /\ Forall while_reading calls /\
    session env o (Channel_new o ch) (calls ++ [Flush now]) = Ok (c, lines).
