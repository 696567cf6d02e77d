(* A concrete reception used by the examples beside the theorems. *)
From Verif.Model Require Import Base Util Group BlockSync.
From Verif.Spec Require Import RdsCode RdsStream Reception.
From Verif.Proofs Require Import Tac Syndrome Ring BlockSyncP BlockSyncR BlockSyncT BlockSyncD BlockSyncA BlockSyncG BlockSyncE.

(* --- a concrete reception used below: three blocks, then the rest --- *)

Definition ex_t : TxGroup := mkTx 0x6201 0x0548 0x5B4C 0x2020.       (* a 0A group *)
Definition ex_tB : TxGroup := mkTx 0x6201 0x2D48 0x6201 0x4142.      (* a 2B group *)
Definition ex_signal : list bool := [true; false; true] ++ tx_bits ex_t ++ tx_bits ex_tB.
Definition ex_pre : list bool := firstn 80 ex_signal.   (* all but the last bit of block 3 *)
Definition ex_bit : bool := nth 80 ex_signal false.
Definition ex_rest : list N := [tx_block OffD 0x2020].  (* completes the first group *)

Lemma ex_acquires : acquires true ex_pre ex_bit.
Proof. split; vm_compute; reflexivity. Qed.

Lemma cprime_refuted :
  exists pre b ws0 t e3 g, acquires true pre b /\ tx_ok t /\ third_offset t = OffCprime /\
  short_burst e3 /\
  groups_after true (pre ++ [b] ++ flat_map block_bits ws0) (rx_bits (t, (0, 0, e3, 0))) = [g] /\
  g_has g BLOCK3 = true /\ g_get g BLOCK3 <> tx3 t.
Proof.
  exists ex_pre, ex_bit, ex_rest.
  apply (cprime_miscorrected ex_pre ex_bit ex_rest ex_tB ex_acquires eq_refl).
  - repeat constructor.
  - apply kept_dec. vm_compute. reflexivity.
  - vm_compute. reflexivity.
Qed.

(* --- which errors of a C' block are miscorrected --- *)

Definition cprime_traps : list (N * N) := [(2 ^ 20, 3 * 2 ^ 23); (3 * 2 ^ 23, 2 ^ 20)].

Lemma cprime_sweep : forallb (fun e => forallb (fun e' =>
    negb (N.lxor (calculateSyndrome e) (calculateSyndrome (offset_word OffCprime)) =?
          N.lxor (calculateSyndrome e') (calculateSyndrome (offset_word OffC))) ||
    existsb (fun p => (fst p =? e) && (snd p =? e')) cprime_traps)
  (0 :: short_burst_list)) short_burst_list = true.
Proof. vm_compute. reflexivity. Qed.

Lemma cprime_trap : forall d d' e e', d < 2 ^ 16 -> d' < 2 ^ 16 -> short_burst e -> fixable true e' ->
  N.lxor (tx_block OffCprime d) e = N.lxor (tx_block OffC d') e' ->
  In (e, e') cprime_traps /\ d' = N.lxor d 0x6400.
Proof.
  intros d d' e e' Hd Hd' He He' E.
  assert (T : In (e, e') cprime_traps).
  { pose proof (f_equal calculateSyndrome E) as S. rewrite !syndrome_lxor, !tx_syndrome in S by assumption.
    apply short_burst_In in He.
    assert (I : In e' (0 :: short_burst_list)).
    { destruct He' as [->|[_ X]]; [left; reflexivity|right; apply short_burst_In; exact X]. }
    pose proof (forallb_In _ _ e cprime_sweep He) as S1. cbn beta in S1.
    pose proof (forallb_In _ _ e' S1 I) as S2. cbn beta in S2. clear S1.
    rewrite (N.lxor_comm (calculateSyndrome e)), (N.lxor_comm (calculateSyndrome e')), S, N.eqb_refl in S2. cbn [negb orb] in S2.
    apply existsb_exists in S2. destruct S2 as ((x & y) & X & Y). cbn [fst snd] in Y. apply andb_prop in Y. destruct Y as [Y1 Y2].
    apply N.eqb_eq in Y1. apply N.eqb_eq in Y2. subst x y. exact X. }
  split; [exact T|].
  assert (V : tx_block OffC d' = N.lxor (N.lxor (tx_block OffCprime d) e) e').
  { rewrite E, N.lxor_assoc, N.lxor_nilpotent, N.lxor_0_r. reflexivity. }
  apply (f_equal (fun v => N.shiftr v 10)) in V. rewrite !N.shiftr_lxor, !tx_data in V by assumption.
  rewrite V, N.lxor_assoc. f_equal. destruct T as [T|[T|[]]]; injection T as <- <-; reflexivity.
Qed.

Lemma cprime_trap_conv : forall d e e', d < 2 ^ 16 -> In (e, e') cprime_traps ->
  short_burst e' /\ N.lxor (tx_block OffCprime d) e = N.lxor (tx_block OffC (N.lxor d 0x6400)) e'.
Proof.
  intros d e e' Hd T.
  assert (B : short_burst e').
  { apply short_burst_In. destruct T as [T|[T|[]]]; injection T as <- <-; vm_compute; tauto. }
  assert (B' : e < 2 ^ 26) by (destruct T as [T|[T|[]]]; injection T as <- <-; reflexivity).
  split; [exact B|].
  assert (V : N.lxor (N.lxor (tx_block OffCprime d) e) e' = tx_block OffC (N.lxor d 0x6400)).
  { etransitivity; [apply (codeword_of_syndrome OffC)|].
    - apply lxor_lt_pow2; [apply lxor_lt_pow2; [apply tx_block_lt; exact Hd|exact B']|apply short_burst_lt, B].
    - rewrite !syndrome_lxor, tx_syndrome by exact Hd. destruct T as [T|[T|[]]]; injection T as <- <-; vm_compute; reflexivity.
    - f_equal. rewrite !N.shiftr_lxor, tx_data, N.lxor_assoc by exact Hd. f_equal. destruct T as [T|[T|[]]]; injection T as <- <-; reflexivity. }
  rewrite <- V, N.lxor_assoc, N.lxor_nilpotent, N.lxor_0_r. reflexivity.
Qed.

Lemma cprime_settles : forall d e, d < 2 ^ 16 -> short_burst e -> settle OffC (recognise (N.lxor (tx_block OffCprime d) e)) = OffC.
Proof.
  intros d e Hd He. pose proof (recognise_short OffCprime d e ltac:(discriminate) Hd He) as X.
  unfold settle. destruct (recognise _); try reflexivity. exfalso. apply X. reflexivity.
Qed.

Lemma cprime_exact : forall fec pre b ws0 w1 w2 w4 d e, acquires fec pre b ->
  Forall (fun w => w < 2 ^ 26) ws0 -> Forall (fun w => w < 2 ^ 26) [w1; w2; w4] -> d < 2 ^ 16 -> short_burst e ->
  let w3 := N.lxor (tx_block OffCprime d) e in
  let o := recognise (window (pre ++ [b])) in
  kept [false] (err_flags (following o) (ws0 ++ [w1; w2; w3; w4])) ->
  expect_after (following o) ws0 = OffA ->
  exists g, groups_after fec (pre ++ [b] ++ flat_map block_bits ws0) (flat_map block_bits [w1; w2; w3; w4]) = [g] /\
  (g_has g BLOCK3 = true <-> fec = true /\ (e = 2 ^ 20 \/ e = 3 * 2 ^ 23)) /\
  (g_has g BLOCK3 = true -> g_get g BLOCK3 = N.lxor d 0x6400).
Proof.
  intros fec pre b ws0 w1 w2 w4 d e AQ HF HW Hd He w3 o K EA.
  assert (W3 : w3 < 2 ^ 26) by (apply lxor_lt_pow2; [apply tx_block_lt; exact Hd|apply short_burst_lt, He]).
  assert (HW' : Forall (fun w => w < 2 ^ 26) [w1; w2; w3; w4]).
  { rewrite !Forall_cons_iff in *. tauto. }
  destruct (group_exact fec pre b ws0 w1 w2 w3 w4 AQ HF HW' K EA) as (g & G & P). exists g. split; [exact G|].
  destruct (P BLOCK3) as [P1 P2]. cbn [word_of own_offset] in P1, P2.
  assert (S : settle OffC (recognise w3) = OffC) by (apply cprime_settles; assumption). rewrite S in P1, P2.
  assert (Q : forall d' e', d' < 2 ^ 16 -> fixable fec e' -> w3 = N.lxor (tx_block OffC d') e' ->
            (fec = true /\ (e = 2 ^ 20 \/ e = 3 * 2 ^ 23)) /\ d' = N.lxor d 0x6400).
  { intros d' e' L F E.
    assert (F' : fixable true e') by (destruct F as [F|[_ F]]; [left; exact F|right; split; [reflexivity|exact F]]).
    destruct (cprime_trap d d' e e' Hd L He F' E) as [T ->]. split; [|reflexivity]. split.
    - destruct F as [F|[F _]]; [|exact F]. subst e'. destruct T as [T|[T|[]]]; discriminate T.
    - destruct T as [T|[T|[]]]; injection T as <- <-; auto. }
  split; [split|].
  - intros H. apply P1 in H. destruct H as (d' & e' & L & F & E). exact (proj1 (Q d' e' L F E)).
  - intros [F T]. apply P1.
    assert (X : exists e', In (e, e') cprime_traps).
    { destruct T as [->| ->]; eexists; [left|right; left]; reflexivity. }
    destruct X as (e' & X). destruct (cprime_trap_conv d e e' Hd X) as [B E]. exists (N.lxor d 0x6400), e'. split; [|split; [|exact E]].
    + apply lxor_lt_pow2; [exact Hd|reflexivity].
    + right. split; assumption.
  - intros H. pose proof H as H'. apply P1 in H'. destruct H' as (d' & e' & L & F & E). destruct (P2 H) as (L2 & e2 & F2 & E2 & _).
    exact (proj2 (Q _ e2 L2 F2 E2)).
Qed.
