(* A name after any disturbance (C108). *)
From Verif.Model Require Import Base Util Float Group BlockSync Options Tables Freq RdsString Rft Json Tmc Station Channel Input Dsp Main.
From Verif.Spec Require Import RdsCode RdsStream Reception Inputs Unicode JsonText Session Identity Texts History Received Program Recording OnAir Host Recovery.
From Verif.Proofs Require Import Tac UpdateP SessionP ChannelP HistoryP HostP PsP InputP MainP Ring BlockSyncP BlockSyncE RecordP AirP BlockSyncS.

Definition clean (t : TxGroup) : TxGroup * (N * N * N * N) := (t, (0, 0, 0, 0)).

Lemma name_again : forall env o clock t input bits0 ts0 ts1 ts2 tn rest p earlier n0 n1 n2 n3 n4 n5 n6 n7,
  host_ok env -> host_text env -> o_output_type o = OutJSON ->
  let bits := bits0 ++ flat_map tx_bits ts0 in
  let ts := ts1 ++ ts2 ++ [tn] in
  bit_characters input = bits ++ flat_map tx_bits ts ++ rest ->
  length ts0 = 14%nat -> Forall tx_ok ts0 -> Forall tx_ok ts ->
  (length (chance_blocks bits (length bits0)) <= 7)%nat -> ~ chance_rhythm bits (length bits0) ->
  p <> 0 -> Forall (fun x => tx1 x = p) ts -> (3 <= length ts1)%nat ->
  name_part tn <> [] -> flat_map name_part (ts2 ++ [tn]) = earlier ++ [(0, n0, n1); (1, n2, n3); (2, n4, n5); (3, n6, n7)] ->
  ~ In end_of_text [n0; n1; n2; n3; n4; n5; n6; n7] ->
  exists items line more, processASCIIBitsInput env o clock t input = Ok (EXIT_SUCCESS, items ++ [Line 0 line] ++ more) /\
    says line ["ps"%string] (VStr (rds_text [n0; n1; n2; n3; n4; n5; n6; n7])).
Proof.
  intros env o clock t input bits0 ts0 ts1 ts2 tn rest p earlier n0 n1 n2 n3 n4 n5 n6 n7 H Ht OJ bits ts I L0 F0 F C R P0 P L1 Nt N4 Ne.
  destruct (bits_as_groups env o clock t input H) as (gs & c & out & M & W & Rg & Er & Ep).
  assert (Q : groups_after (o_use_fec o) [] (ascii_bits input) =
    groups_after (o_use_fec o) [] bits ++ groups_after (o_use_fec o) bits (flat_map tx_bits ts) ++ groups_after (o_use_fec o) (bits ++ flat_map tx_bits ts) (rest ++ [false])).
  { rewrite ascii_bits_spec, I. rewrite <- groups_after_more, <- groups_after_app. f_equal. rewrite <- !app_assoc. reflexivity. }
  rewrite Q in M. apply map_split in M. destruct M as (gs0 & gsr & -> & _ & M). apply map_split in M. destruct M as (gs1 & gs2 & -> & M1 & _).
  destruct (recovery (o_use_fec o) bits0 ts0 ts L0 F0 F C R) as [D _]. fold bits in D. rewrite <- M1 in D.
  rewrite app_assoc in Er. rewrite run_groups_app in Er.
  destruct (run_groups env o (Channel_new o 0) (gs0 ++ gs1)) as [[c1 out1]| |] eqn:E1; cbn [bind] in Er; try discriminate.
  destruct (run_groups env o c1 gs2) as [[c2 out2]| |] eqn:E2; cbn [bind] in Er; try discriminate.
  assert (Eo : out = out1 ++ out2) by congruence. subst out.
  assert (Dl : Forall2 (fun te x => delivered (fst te) (bad4 (snd te)) (snd (fst x)) /\ snd x = 0) (map clean ts1 ++ map clean ts2 ++ [clean tn]) gs1).
  { change [clean tn] with (map clean [tn]). rewrite <- !map_app. fold ts. apply Forall_app in W. destruct W as [_ W]. apply Forall_app in W. destruct W as [W _].
    clear - D W. revert gs1 D W. induction ts as [|x l IH]; intros gs1 D W.
    - destruct gs1; [constructor|inversion D].
    - destruct gs1 as [|y gs1]; [inversion D|]. cbn [map] in D |- *. inversion D; subst. inversion W; subst. constructor; [split; assumption|apply IH; assumption]. }
  assert (Fn : forall l, flat_map (fun x : TxGroup * (N * N * N * N) => name_part (fst x)) (map clean l) = flat_map name_part l)
    by (induction l as [|x l IH]; [reflexivity|]; cbn [map flat_map]; rewrite IH; reflexivity).
  destruct (name_of_groups env o gs0 gs1 (map clean ts1) (map clean ts2) (clean tn) c1 out1 p earlier n0 n1 n2 n3 n4 n5 n6 n7 H Ht OJ) as (out' & line & -> & S); try assumption.
  - rewrite app_assoc in Rg. apply Forall_app in Rg. exact (proj1 Rg).
  - change [clean tn] with (map clean [tn]). rewrite <- !map_app. fold ts. apply Forall_forall. intros x X. apply in_map_iff in X. destruct X as (y & <- & Y).
    rewrite Forall_forall in P. exact (P y Y).
  - rewrite map_length. exact L1.
  - change [clean tn] with (map clean [tn]). rewrite <- map_app, Fn. exact N4.
  - exists (Main.lines_of 0 out'), line, (Main.lines_of 0 out2). split; [|exact S]. rewrite Ep, lines_app, lines_app. cbn. rewrite <- app_assoc. reflexivity.
Qed.
