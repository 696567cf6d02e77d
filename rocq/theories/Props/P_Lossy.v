(* C109: a station name of which parts are lost or repeated. *)
From Verif.Model Require Import Base Util Group Options Tables Json RdsString Tmc Station Channel.
From Verif.Spec Require Import Unicode JsonText Session Identity History Quality Texts Host Cases.
From Verif.Proofs Require Import Tac UpdateP SessionP ChannelP HostP StringP PsP LossyP.
From Verif.Props Require Import P_Channel.

Local Open Scope string_scope.
Local Open Scope N_scope.
Local Open Scope list_scope.

(* --- C109 --- *)
(* gs0: any history after which station p is confirmed.  gs1 and g: groups of p, with name parts in any order, repeated,
   some of them lost.  If what was received is a complete text - since the last part 0, parts 1, 2 and 3 were each
   received directly after the part before - then group g's line shows it. *)
Theorem C109_complete_is_shown : forall env o w0 gs0 gs1 now g c out p l,
  host_ok env -> host_text env -> o_output_type o = OutJSON ->
  let gs := gs1 ++ [(now, g, 0)] in
  Forall received_group (gs0 ++ gs) -> p <> 0 -> three p (pis gs0) -> Forall (stays p) gs ->
  Forall (fun x => ps_segment (snd (fst x), snd x) <> [] -> carried_pi x = Some p) gs ->
  ps_segment (g, 0) <> [] -> complete_text 8 (ps_writes (groups_of gs)) l ->
  run_groups env o (Channel_new o w0) (gs0 ++ gs) = Ok (c, out) ->
  exists out' line, out = out' ++ [Some line] /\ says line ["ps"] (VStr (rds_text l)).
Proof. exact ps_any_order. Qed.
Print Assumptions C109_complete_is_shown.

Definition part (k chars : N) : Z * Group * N := ((11 * sec)%Z, group4 0x2204 (0x0408 + k) 0xE0E0 chars, 0).
Definition others : list (Z * Group * N) := repeat ((1 * sec)%Z, group4 0x2204 0x2400 0x4141 0x4141, 0) 3.

(* Parts 2, 0, 3, 0, 0, 1, 1, 2, 3, 2: the last part 2 is of a name that has changed *)
Definition jumbled : list (Z * Group * N) :=
  [part 2 0x5858; part 0 0x5858; part 3 0x5858; part 0 0x5858; part 0 0x5241; part 1 0x4449; part 1 0x4449; part 2 0x4F20; part 3 0x3120].
Definition jumbled_last : Group := group4 0x2204 0x040A 0xE0E0 0x4F2D.
Example C109_case : let gs := jumbled ++ [((12 * sec)%Z, jumbled_last, 0)] in
  Forall received_group (others ++ gs) /\ three 0x2204 (pis others) /\ Forall (stays 0x2204) gs /\
  Forall (fun x => ps_segment (snd (fst x), snd x) <> [] -> carried_pi x = Some 0x2204) gs /\ ps_segment (jumbled_last, 0) <> [] /\
  complete_text 8 (ps_writes (groups_of gs)) [0x52; 0x41; 0x44; 0x49; 0x4F; 0x2D; 0x31; 0x20] /\
  match run_groups plain_host Options_default (Channel_new Options_default 0) (others ++ gs) with
  | Ok (_, out) => match rev out with
                   | Some line :: _ => line_at ["ps"] line = Some (VStr (bs "RADIO-1 "))
                   | _ => False
                   end
  | _ => False
  end.
Proof.
  cbv zeta. split; [repeat constructor; reflexivity|]. split; [exists []; reflexivity|].
  split; [repeat constructor; (left; reflexivity) || (right; reflexivity)|].
  split; [repeat constructor; try (intros _; reflexivity); intros X; exfalso; apply X; reflexivity|].
  split; [discriminate|]. split; [|vm_compute; reflexivity].
  split; [split|left; split; [reflexivity|cbn; intuition discriminate]].
  - set (ws := ps_writes _). vm_compute in ws. subst ws. change (N.of_nat _) with 8.
    (* the characters of the last run, one after the other *)
    assert (A : in_sequence 8 ([(4, 0x58); (5, 0x58); (0, 0x58); (1, 0x58); (6, 0x58); (7, 0x58); (0, 0x58); (1, 0x58)] ++
      [(0, 0x52); (1, 0x41); (2, 0x44); (3, 0x49); (2, 0x44); (3, 0x49); (4, 0x4F); (5, 0x20)] ++ [(6, 0x31); (7, 0x20)])).
    { apply in_sequence_earlier. cbn [app].
      apply (in_next [(0, 0x52); (1, 0x41); (2, 0x44); (3, 0x49); (2, 0x44); (3, 0x49); (4, 0x4F); (5, 0x20)] 6).
      apply (in_next [(0, 0x52); (1, 0x41); (2, 0x44); (3, 0x49); (2, 0x44); (3, 0x49); (4, 0x4F)] 5).
      apply (in_next [(0, 0x52); (1, 0x41); (2, 0x44); (3, 0x49); (2, 0x44); (3, 0x49)] 4).
      apply (in_next [(0, 0x52); (1, 0x41); (2, 0x44); (3, 0x49); (2, 0x44)] 3).
      apply (in_other [(0, 0x52); (1, 0x41); (2, 0x44); (3, 0x49); (2, 0x44)] 4); [|discriminate].
      apply (in_other [(0, 0x52); (1, 0x41); (2, 0x44); (3, 0x49)] 4); [|discriminate].
      apply (in_next [(0, 0x52); (1, 0x41)] 2). apply (in_next [(0, 0x52)] 1). apply (in_next [] 0). apply (in_start []). }
    match goal with |- in_sequence 8 ?x => replace x with ((([(4, 0x58); (5, 0x58); (0, 0x58); (1, 0x58); (6, 0x58); (7, 0x58); (0, 0x58); (1, 0x58)] ++
      [(0, 0x52); (1, 0x41); (2, 0x44); (3, 0x49); (2, 0x44); (3, 0x49); (4, 0x4F); (5, 0x20)] ++ [(6, 0x31); (7, 0x20)]) ++ [(4, 0x4F)]) ++ [(5, 0x2D)]) by reflexivity end.
    apply in_other; [|discriminate]. apply in_other; [|discriminate]. exact A.
  - intros i b Hi. do 8 (destruct i as [|i]; [cbn in Hi; injection Hi as <-; vm_compute; reflexivity|]). destruct i; discriminate Hi.
Qed.

(* Part 2 never received directly after part 1 (and no end mark sent): the name is never shown, however often each of
   its parts is received. *)
Theorem C109_not_in_order_not_shown : forall env o w0 gs0 gs c out p, host_ok env -> o_output_type o = OutJSON ->
  Forall received_group (gs0 ++ gs) -> p <> 0 -> three p (pis gs0) -> flat_map ps_segment (groups_of gs0) = [] -> Forall (fun x => carried_pi x = Some p) gs ->
  Forall (fun s => snd (fst s) <> end_of_text /\ snd s <> end_of_text) (flat_map ps_segment (groups_of gs)) ->
  (forall s t s1 s2, flat_map ps_segment (groups_of gs) = s1 ++ [s; t] ++ s2 -> ~ (fst (fst s) = 1 /\ fst (fst t) = 2)) ->
  run_groups env o (Channel_new o w0) (gs0 ++ gs) = Ok (c, out) ->
  forall line v, In (Some line) out -> ~ says line ["ps"] v.
Proof. exact never_shown. Qed.
Print Assumptions C109_not_in_order_not_shown.

(* One would expect a name to be shown once each of its parts has been received.  It is not: if part 2 is lost, then part 1,
   then part 2 again and so on, the name "RADIO 1 " is not shown however long this goes on. *)
Definition lossy_cycle : list (Z * Group * N) :=
  [part 0 0x5241; part 1 0x4449; part 3 0x3120; part 0 0x5241; part 2 0x4F20; part 3 0x3120].
Definition lossy (n : nat) : list (Z * Group * N) := concat (repeat lossy_cycle n).

Lemma lossy_parts : forall n, flat_map ps_segment (groups_of (lossy n)) =
  concat (repeat [(0, 0x52, 0x41); (1, 0x44, 0x49); (3, 0x31, 0x20); (0, 0x52, 0x41); (2, 0x4F, 0x20); (3, 0x31, 0x20)] n).
Proof.
  induction n as [|n IH]; [reflexivity|]. unfold lossy in *. cbn [repeat concat]. unfold groups_of in *. rewrite map_app, flat_map_app, IH. reflexivity.
Qed.
Lemma lossy_order : forall n s t s1 s2,
  concat (repeat [(0, 0x52, 0x41); (1, 0x44, 0x49); (3, 0x31, 0x20); (0, 0x52, 0x41); (2, 0x4F, 0x20); (3, 0x31, 0x20)] n) = s1 ++ [s; t] ++ s2 ->
  ~ (fst (fst s) = 1 /\ fst (fst t) = 2).
Proof.
  induction n as [|n IH]; intros s t s1 s2 E [Hs Ht]; [destruct s1; discriminate|].
  cbn [repeat concat app] in E.
  do 6 (destruct s1 as [|? s1]; [cbn [app] in E; injection E as Es Et; subst; try discriminate|cbn [app] in E; injection E as _ E]).
  exact (IH s t s1 s2 E (conj Hs Ht)).
Qed.
Theorem C109_each_part_received_refuted : forall n, exists c out,
  run_groups plain_host Options_default (Channel_new Options_default 0) (others ++ lossy n) = Ok (c, out) /\
  forall line v, In (Some line) out -> ~ says line ["ps"] v.
Proof.
  intros n.
  assert (Fl : forall P : Z * Group * N -> Prop, Forall P lossy_cycle -> Forall P (lossy n)).
  { intros P F. unfold lossy. clear - F. induction n as [|n IH]; [constructor|]. cbn [repeat concat]. apply Forall_app. split; [exact F|exact IH]. }
  assert (R : Forall received_group (others ++ lossy n)) by (apply Forall_app; split; [|apply Fl]; repeat constructor; reflexivity).
  destruct (run_groups_good plain_host Options_default (others ++ lossy n) (Channel_new Options_default 0) (proj1 (host_env _ plain_host_ok)) (channel_new_ok _ _))
    as ([c out] & E & _); [eapply Forall_impl; [|exact R]; intros [[? ?] ?] X; apply X|].
  exists c, out. split; [exact E|].
  apply (C109_not_in_order_not_shown plain_host Options_default 0 others (lossy n) c out 0x2204 plain_host_ok eq_refl R); [discriminate|exists []; reflexivity|reflexivity| | | |exact E].
  - apply Fl. repeat constructor; reflexivity.
  - rewrite lossy_parts. clear. induction n as [|n IH]; [constructor|]. cbn [repeat concat]. apply Forall_app. split; [repeat constructor; discriminate|exact IH].
  - rewrite lossy_parts. apply lossy_order.
Qed.
Print Assumptions C109_each_part_received_refuted.

(* Nor are parts counted whose own block 4 was received but not block 3, which has nothing to do with the name: if no block 3
   is received, the name is never shown, although all its parts are received in order again and again. *)
Theorem C109_without_block_3_refuted : forall env o w0 gs0 gs c out p, host_ok env -> o_output_type o = OutJSON ->
  Forall received_group (gs0 ++ gs) -> p <> 0 -> three p (pis gs0) -> flat_map ps_segment (groups_of gs0) = [] -> Forall (fun x => carried_pi x = Some p) gs ->
  Forall (fun x => blk_is_received (g_b3 (snd (fst x))) = false) gs ->
  run_groups env o (Channel_new o w0) (gs0 ++ gs) = Ok (c, out) ->
  forall line v, In (Some line) out -> ~ says line ["ps"] v.
Proof.
  intros env o w0 gs0 gs c out p H OJ R P0 T3 N0 Pi B3 E.
  assert (X : flat_map ps_segment (groups_of gs) = []).
  { clear - B3. induction B3 as [|[[n g] w] gs B B3 IH]; [reflexivity|]. cbn [fst snd] in B. unfold groups_of in *. cbn [map flat_map fst snd].
    rewrite IH, app_nil_r. unfold ps_segment, carries. rewrite B, andb_false_r. reflexivity. }
  apply (C109_not_in_order_not_shown env o w0 gs0 gs c out p H OJ R P0 T3 N0 Pi); [rewrite X; constructor| |exact E].
  intros s t s1 s2 Y. rewrite X in Y. destruct s1; discriminate.
Qed.
Print Assumptions C109_without_block_3_refuted.
(* Such groups: all four parts of "RADIO 1 ", any number of times *)
Definition part24 (k chars : N) : Z * Group * N :=
  ((11 * sec)%Z, g_setBlock (g_setBlock (g_setBlock Group_default BLOCK1 (rx OffA 0x2204)) BLOCK2 (rx OffB (0x0408 + k))) BLOCK4 (rx OffD chars), 0).
Definition without_3 (n : nat) : list (Z * Group * N) := concat (repeat [part24 0 0x5241; part24 1 0x4449; part24 2 0x4F20; part24 3 0x3120] n).
Example C109_without_block_3_case : forall n, Forall received_group (others ++ without_3 n) /\ three 0x2204 (pis others) /\
  flat_map ps_segment (groups_of others) = [] /\ Forall (fun x => carried_pi x = Some 0x2204) (without_3 n) /\
  Forall (fun x => blk_is_received (g_b3 (snd (fst x))) = false /\ blk_is_received (g_b4 (snd (fst x))) = true /\ g_has_type (snd (fst x)) = true) (without_3 n).
Proof.
  intros n.
  assert (Fl : forall P : Z * Group * N -> Prop, Forall P (without_3 1) -> Forall P (without_3 n)).
  { intros P F. unfold without_3 in *. cbn [repeat concat] in F. rewrite app_nil_r in F. induction n as [|n IH]; [constructor|]. cbn [repeat concat]. apply Forall_app. split; [exact F|exact IH]. }
  split; [apply Forall_app; split; [|apply Fl]; repeat constructor; reflexivity|]. split; [exists []; reflexivity|]. split; [reflexivity|].
  split; apply Fl; repeat constructor; reflexivity.
Qed.
