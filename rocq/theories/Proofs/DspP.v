(* The biphase and differential decoders, deinterleaving. *)
From Verif.Model Require Import Util Group Options Input Dsp Float.
From Verif.Spec Require Import Inputs.
From Verif.Proofs Require Import Tac.

Local Open Scope N_scope.
Local Open Scope list_scope.

Definition level (inverted b : bool) : N := if xorb inverted b then 1 else 0.
Lemma delta_differential : forall inverted data previous,
  delta_run (level inverted previous) (map (level inverted) (differential previous data)) = map N.b2n data.
Proof.
  intros inverted data. induction data as [|d data IH]; intros previous; [reflexivity|]. cbn [differential map delta_run]. unfold delta_decode. cbn [fst snd]. rewrite IH.
  f_equal. destruct inverted, previous, d; reflexivity.
Qed.
Lemma delta_first : forall inverted first data prev,
  tl (delta_run prev (map (level inverted) (first :: differential first data))) = map N.b2n data.
Proof. intros inverted first data prev. cbn [map delta_run delta_decode tl]. unfold delta_decode. apply delta_differential. Qed.

(* Biphase *)
Definition bp_ok (d : BiphaseDecoder) : Prop :=
  length (bp_clock_history d) = 128%nat /\ bp_clock d < 128 /\ bp_clock_polarity d < 2.
Lemma bp_init : bp_ok BiphaseDecoder_init.
Proof. repeat split. Qed.
Lemma list_set_len : forall (A : Type) (l : list A) i x, length (list_set l i x) = length l.
Proof. intros A. induction l as [|y l IH]; intros [|i] x; cbn [list_set length]; try reflexivity. rewrite IH. reflexivity. Qed.
Lemma biphase_step : forall d s, bp_ok d -> exists d' data, biphase_push d s = Ok (d', data, bp_clock d mod 2 =? bp_clock_polarity d) /\ bp_ok d' /\
  (bp_clock d < 127 -> bp_clock d' = bp_clock d + 1 /\ bp_clock_polarity d' = bp_clock_polarity d) /\ (bp_clock d = 127 -> bp_clock d' = 0).
Proof.
  intros d s (A & B & C). unfold biphase_push, arr_set. rewrite A. change (N.of_nat 128) with 128. replace (bp_clock d <? 128) with true by lia. cbn [bind].
  rewrite list_set_len, A. change (N.of_nat 128) with 128. unfold u32. rewrite N.mod_small by lia.
  destruct (N.eqb_spec (bp_clock d + 1) 128) as [E|E].
  - destruct (phase_sums _ _ _ _) as [a b]. eexists. eexists. split; [reflexivity|]. unfold bp_ok. cbn [bp_clock_history bp_clock bp_clock_polarity].
    split; [split; [rewrite map_length, list_set_len; exact A|split; [lia|]]|split; [lia|reflexivity]].
    destruct (SFltb b a); [lia|]. destruct (SFltb a b); lia.
  - eexists. eexists. split; [reflexivity|]. unfold bp_ok. cbn [bp_clock_history bp_clock bp_clock_polarity]. rewrite list_set_len.
    repeat split; try assumption; lia.
Qed.
Definition imbalance (d : BiphaseDecoder) : Z :=
  if bp_clock d mod 2 =? 0 then 0%Z else if bp_clock_polarity d =? 0 then 1%Z else (-1)%Z.
Lemma symbol_bits_ok : forall syms d prev, bp_ok d -> exists bits, symbol_bits d prev syms = Ok bits /\ Forall (fun b => b = 0 \/ b = 1) bits /\
  (-1 <= imbalance d + 2 * Z.of_nat (length bits) - Z.of_nat (length syms) <= 1)%Z.
Proof.
  induction syms as [|s syms IH]; intros d prev D.
  - exists []. split; [reflexivity|]. split; [constructor|]. cbn [length]. unfold imbalance. destruct (_ =? 0); [lia|]. destruct (_ =? 0); lia.
  - cbn [symbol_bits]. destruct (biphase_step d s D) as (d' & data & -> & D' & Nx & Wr). cbn [bind].
    assert (Hv : imbalance d' = (imbalance d + (if (bp_clock d mod 2 =? bp_clock_polarity d)%N then 1 else -1))%Z).
    { destruct D as (_ & B & C). unfold imbalance. destruct (N.ltb_spec (bp_clock d) 127) as [Hc|Hc].
      - destruct (Nx Hc) as [-> ->]. assert (bp_clock d mod 2 = 0 \/ bp_clock d mod 2 = 1) as [M|M] by lia.
        + assert (M' : (bp_clock d + 1) mod 2 = 1) by lia. rewrite M, M'. assert (bp_clock_polarity d = 0 \/ bp_clock_polarity d = 1) as [-> | ->] by lia; reflexivity.
        + assert (M' : (bp_clock d + 1) mod 2 = 0) by lia. rewrite M, M'. assert (bp_clock_polarity d = 0 \/ bp_clock_polarity d = 1) as [-> | ->] by lia; reflexivity.
      - assert (E : bp_clock d = 127) by lia. rewrite (Wr E), E. change (127 mod 2) with 1. change (0 mod 2) with 0. cbn [N.eqb Pos.eqb].
        assert (bp_clock_polarity d = 0 \/ bp_clock_polarity d = 1) as [-> | ->] by lia; reflexivity. }
    destruct (bp_clock d mod 2 =? bp_clock_polarity d).
    + unfold delta_decode. destruct (IH d' (if data then 1 else 0) D') as (bits & -> & F & L). cbn [bind]. eexists. split; [reflexivity|].
      split; [constructor; [destruct (_ =? prev); auto|exact F]|]. cbn [length]. lia.
    + destruct (IH d' prev D') as (bits & -> & F & L). exists bits. split; [reflexivity|]. split; [exact F|]. cbn [length]. lia.
Qed.
