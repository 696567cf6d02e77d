(* C66: blocks that were not received. *)
From Verif.Model Require Import Base Util Float Group Options Json Tmc Tables Station Input Channel.
From Verif.Spec Require Import Unicode JsonText Session Identity Texts Apps History Host Cases Received.
From Verif.Proofs Require Import Tac HostP UpdateP ChannelP LinesP ShowP ReceivedP.
From Verif.Props Require Import P_Channel P_Text P_Radiotext P_Apps.

Local Open Scope string_scope.
Local Open Scope N_scope.
Local Open Scope list_scope.

(* --- C66 --- *)
(* Whatever the blocks that were not received contain, the same is printed and the same is remembered:
   in groups whose type is known from a received block 2, except transparent data, DAB cross-reference
   and enhanced RadioText, for which blocks 3 and 4 must have been received. *)
Theorem C66_only_received_blocks : forall env o w0 gs gs', host_ok env -> Forall received_group gs -> Forall2 same_reception gs gs' ->
  Forall (fun x => snd x = 0 -> g_has_type (snd (fst x)) = true -> blk_is_received (g_b2 (snd (fst x))) = true) gs ->
  (forall gs1 x gs2, gs = gs1 ++ x :: gs2 -> unchecked (groups_of gs1) (snd (fst x), snd x) ->
     blk_is_received (g_b3 (snd (fst x))) = true /\ blk_is_received (g_b4 (snd (fst x))) = true) ->
  run_groups env o (Channel_new o w0) gs' = run_groups env o (Channel_new o w0) gs.
Proof.
  intros env o w0 gs gs' H F Al T U. apply (al_run env o gs gs' []); try assumption; [apply channel_new_ok|apply same_receptions, Al|].
  exists []. split; [intros x []|reflexivity].
Qed.
Print Assumptions C66_only_received_blocks.

(* A group with blocks 1 and 2 received, and any contents of the others *)
Definition half (b2 x y : N) : Group :=
  g_setBlock (g_setBlock (g_setBlock (g_setBlock Group_default BLOCK1 (rx OffA 0x2204)) BLOCK2 (rx OffB b2))
    BLOCK3 (mkBlock 0 x false true OffC)) BLOCK4 (mkBlock 0 y false true OffD).
Definition halves (x y : N) : list (Z * Group * N) :=
  ps_groups ++ at_times 11 [half 0x2403 x y; half 0x1400 x y; half 0xE400 x y; half 0xF401 x y; half 0xB400 x y; half 0x640F x y; rt2 0x3416 0x0000 0x4BD7; half 0xB418 x y].
Example C66_case :
  Forall received_group (halves 0x1234 0x5678) /\ Forall2 same_reception (halves 0x1234 0x5678) (halves 0xFFFF 0xABCD) /\
  Forall (fun x => snd x = 0 -> g_has_type (snd (fst x)) = true -> blk_is_received (g_b2 (snd (fst x))) = true) (halves 0x1234 0x5678) /\
  (forall gs1 x gs2, halves 0x1234 0x5678 = gs1 ++ x :: gs2 -> ~ unchecked (groups_of gs1) (snd (fst x), snd x)) /\
  halves 0x1234 0x5678 <> halves 0xFFFF 0xABCD.
Proof.
  split; [repeat constructor; vm_compute; reflexivity|]. split; [|split; [repeat constructor|split]].
  - repeat (apply Forall2_cons; [split; [reflexivity|]; split; [reflexivity|]; unfold same_received, same_block; cbn; repeat split; intros; congruence|]). apply Forall2_nil.
  - intros gs1 x gs2 E (_ & _ & Q). assert (X : In x (halves 0x1234 0x5678)) by (rewrite E; apply in_elt).
    assert (Y : forall t a, In (t, a) (flat_map announcement (groups_of gs1)) -> a = 0x4BD7).
    { intros t a I. assert (J : In (t, a) (flat_map announcement (groups_of (halves 0x1234 0x5678)))).
      { rewrite E. unfold groups_of. rewrite map_app, flat_map_app. apply in_or_app. left. exact I. }
      vm_compute in J. destruct J as [J|[]]. congruence. }
    destruct Q as [Q|[Q|Q]]; [|apply Y in Q; discriminate|apply Y in Q; discriminate].
    vm_compute in X. repeat (destruct X as [<-|X]; [discriminate Q|]). destruct X.
  - intros X. vm_compute in X. discriminate X.
Qed.

(* Transparent data are shown, and become part of the text of the whole channel, without the blocks that carry them. *)
Theorem C66_transparent_data_refuted : exists gs g line,
  last_line Options_default (gs ++ [g]) = Some line /\ blk_is_received (g_b3 (snd (fst g))) = false /\ blk_is_received (g_b4 (snd (fst g))) = false /\
  says line ["transparent_data"; "raw"] (VStr (bs "00 00 00 00")) /\ says line ["transparent_data"; "as_text"] (VStr (bs "    ")).
Proof.
  exists ps_groups, ((12 * sec)%Z, g_setBlock (g_setBlock Group_default BLOCK1 (rx OffA 0x2204)) BLOCK2 (rx OffB 0x5404), 0).
  eexists. split; [vm_compute; reflexivity|]. repeat split; vm_compute; reflexivity.
Qed.
Print Assumptions C66_transparent_data_refuted.

(* From a line of TEF6686 text with an error in block 2, decoder identification, traffic announcement and
   music flag are shown from that block. *)
Theorem C66_type_from_lost_block_refuted : exists g gs line, read_tef_input (bs "P2204
R0412E0E0414230
") = g :: gs /\ blk_is_received (g_b2 g) = false /\
  last_line Options_default (ps_groups ++ [((12 * sec)%Z, g, 0)]) = Some line /\
  says line ["ta"] (VBool true) /\ says line ["is_music"] (VBool false).
Proof. eexists. eexists. eexists. split; [vm_compute; reflexivity|]. split; [vm_compute; reflexivity|]. split; [vm_compute; reflexivity|]. split; vm_compute; reflexivity. Qed.
Print Assumptions C66_type_from_lost_block_refuted.
