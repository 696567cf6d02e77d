(* C110: RadioText sent without an end mark. *)
From Verif.Model Require Import Base Util Group Options Tables Json RdsString Tmc Station Channel.
From Verif.Spec Require Import Unicode JsonText Session Identity History Quality Texts Host Cases.
From Verif.Proofs Require Import Tac UpdateP SessionP ChannelP HostP StringP PsP RtP NoEndP.
From Verif.Props Require Import P_Channel P_Radiotext.

Local Open Scope string_scope.
Local Open Scope N_scope.
Local Open Scope list_scope.

(* --- C110 --- *)
(* gs0: any history after which station p is confirmed.  gs1: groups of p in which a message l, shorter than the longest
   possible and without end mark, is sent twice in order (m1, m2), among any other groups.  g: the first part of whatever
   follows.  No end mark has been received so far.  Then group g's line shows the message. *)
Theorem C110_repeated_message_is_shown : forall env o w0 gs0 gs1 now g c out p f v m1 m2 q l,
  host_ok env -> host_text env -> o_output_type o = OutJSON ->
  let gs := gs1 ++ [(now, g, 0)] in
  Forall received_group (gs0 ++ gs) -> p <> 0 -> three p (pis gs0) -> Forall (stays p) gs ->
  Forall (fun x => rt_segment (snd (fst x), snd x) <> [] -> carried_pi x = Some p) gs ->
  flat_map rt_segment (groups_of gs1) = m1 ++ m2 -> rt_segment (g, 0) = [q] -> p_pos q = 0 ->
  uniform f v m1 -> uniform f v m2 -> part_writes m1 = place 0 l -> part_writes m2 = place 0 l -> 1 < N.of_nat (length l) < rt_size v ->
  Forall (fun q => ~ In end_of_text (p_chars q)) (flat_map rt_segment (groups_of (gs0 ++ gs))) ->
  no_plus (groups_of (gs0 ++ gs)) (groups_of gs) ->
  run_groups env o (Channel_new o w0) (gs0 ++ gs) = Ok (c, out) ->
  exists out' line s, out = out' ++ [Some line] /\ says line ["radiotext"] (VStr s) /\ trimmed (rds_text l) s.
Proof. exact no_end_shown. Qed.
Print Assumptions C110_repeated_message_is_shown.

(* "Hello   " twice, with a group of the station name in between; then a message with the other flag begins *)
Definition twice_hello : list (Z * Group * N) :=
  at_times 11 [rt2 0x2410 0x4865 0x6C6C; rt2 0x2411 0x6F20 0x2020; rt2 0x2410 0x4865 0x6C6C; rt2 0x0408 0xE0E0 0x4142; rt2 0x2411 0x6F20 0x2020].
Definition new_message : Group := rt2 0x2400 0x4E65 0x7773.
Example C110_case : let gs := twice_hello ++ [((16 * sec)%Z, new_message, 0)] in
  let m := [mkPart true VA 0 [0x48; 0x65; 0x6C; 0x6C]; mkPart true VA 4 [0x6F; 0x20; 0x20; 0x20]] in
  let l := [0x48; 0x65; 0x6C; 0x6C; 0x6F; 0x20; 0x20; 0x20] in
  Forall received_group (ps_groups ++ gs) /\ three 0x2204 (pis ps_groups) /\ Forall (stays 0x2204) gs /\
  Forall (fun x => rt_segment (snd (fst x), snd x) <> [] -> carried_pi x = Some 0x2204) gs /\
  flat_map rt_segment (groups_of twice_hello) = m ++ m /\ rt_segment (new_message, 0) = [mkPart false VA 0 [0x4E; 0x65; 0x77; 0x73]] /\
  uniform true VA m /\ part_writes m = place 0 l /\ 1 < N.of_nat (length l) < rt_size VA /\
  Forall (fun q => ~ In end_of_text (p_chars q)) (flat_map rt_segment (groups_of (ps_groups ++ gs))) /\
  no_plus (groups_of (ps_groups ++ gs)) (groups_of gs) /\
  exists line, last_line Options_default (ps_groups ++ gs) = Some line /\ line_at ["radiotext"] line = Some (VStr (bs "Hello")).
Proof.
  cbv zeta. split; [repeat constructor; reflexivity|]. split; [exists []; reflexivity|].
  split; [repeat constructor; (left; reflexivity) || (right; reflexivity)|].
  split; [repeat constructor; intros _; reflexivity|]. split; [reflexivity|]. split; [reflexivity|].
  split; [repeat constructor|]. split; [reflexivity|]. split; [split; reflexivity|].
  split; [cbn; repeat constructor; cbn; intuition discriminate|].
  split; [intros g _ _ X; exact X|]. eexists. split; [vm_compute; reflexivity|vm_compute; reflexivity].
Qed.

(* The condition on end marks is needed.  gsm: a message with an end mark after the text t.  gs: messages with the other A/B
   flag, which asks the receiver to discard what it has; they have no end mark and are no longer than t.  None of them is
   ever shown, however often they are repeated. *)
Theorem C110_after_an_end_mark_not_shown : forall env o w0 gs0 gsm gs c0 c out0 out p f0 f v t r,
  host_ok env -> host_text env -> o_output_type o = OutJSON ->
  Forall received_group (gs0 ++ gsm ++ gs) -> p <> 0 -> three p (pis gs0) -> Forall (stays p) (gsm ++ gs) ->
  Forall (fun x => rt_segment (snd (fst x), snd x) <> [] -> carried_pi x = Some p) gsm ->
  uniform f0 v (flat_map rt_segment (groups_of gsm)) -> part_writes (flat_map rt_segment (groups_of gsm)) = place 0 (t ++ end_of_text :: r) -> ~ In end_of_text t ->
  no_plus (groups_of (gs0 ++ gsm)) (groups_of gsm) -> f <> f0 ->
  Forall (fun q => p_flag q = f /\ p_version q = v /\ ~ In end_of_text (p_chars q) /\ p_pos q + N.of_nat (length (p_chars q)) <= N.of_nat (length t))
    (flat_map rt_segment (groups_of gs)) ->
  run_groups env o (Channel_new o w0) (gs0 ++ gsm) = Ok (c0, out0) -> run_groups env o c0 gs = Ok (c, out) ->
  forall line value, In (Some line) out -> ~ says line ["radiotext"] value.
Proof. exact old_end_mark. Qed.
Print Assumptions C110_after_an_end_mark_not_shown.

(* One would expect a message that is repeated often enough to be shown.  "Good morning" with an end mark, then, with the
   other flag, "Hello" without end mark, n times: every group is shown, but none of the n messages. *)
Definition good_morning : list (Z * Group * N) :=
  at_times 11 [rt2 0x2400 0x476F 0x6F64; rt2 0x2401 0x206D 0x6F72; rt2 0x2402 0x6E69 0x6E67; rt2 0x2403 0x0D20 0x2020].
Definition hellos (n : nat) : list (Z * Group * N) :=
  concat (repeat (at_times 15 [rt2 0x2410 0x4865 0x6C6C; rt2 0x2411 0x6F20 0x2020]) n).
Lemma hellos_all : forall (P : Z * Group * N -> Prop) n, Forall P (at_times 15 [rt2 0x2410 0x4865 0x6C6C; rt2 0x2411 0x6F20 0x2020]) -> Forall P (hellos n).
Proof. intros P n F. unfold hellos. induction n as [|n IH]; [constructor|]. cbn [repeat concat]. apply Forall_app. split; [exact F|exact IH]. Qed.
Lemma morning : exists c0 out0 last,
  run_groups plain_host Options_default (Channel_new Options_default 0) (ps_groups ++ good_morning) = Ok (c0, out0 ++ [Some last]) /\
  line_at ["radiotext"] last = Some (VStr (bs "Good morning")).
Proof.
  exists (fst (final Options_default (ps_groups ++ good_morning))), (snd (final Options_default (ps_groups ++ good_morning))), (the_line Options_default (ps_groups ++ good_morning)).
  split; vm_compute; reflexivity.
Qed.
Theorem C110_repeated_message_refuted : forall n, exists c0 out0 last c out,
  run_groups plain_host Options_default (Channel_new Options_default 0) (ps_groups ++ good_morning) = Ok (c0, out0 ++ [Some last]) /\
  line_at ["radiotext"] last = Some (VStr (bs "Good morning")) /\
  run_groups plain_host Options_default c0 (hellos n) = Ok (c, out) /\ length out = (n * 2)%nat /\
  forall line value, In (Some line) out -> ~ says line ["radiotext"] value.
Proof.
  intros n.
  destruct morning as (c0 & out0 & last & E0 & Sl). exists c0, out0, last.
  assert (R : Forall received_group (ps_groups ++ good_morning ++ hellos n)).
  { apply Forall_app. split; [repeat constructor; reflexivity|]. apply Forall_app. split; [repeat constructor; reflexivity|]. apply hellos_all. repeat constructor; reflexivity. }
  pose proof R as R'. rewrite app_assoc in R'. apply Forall_app in R'. destruct R' as [R1 R2].
  assert (Bl : forall a, Forall received_group a -> Forall (fun x => g_has_bler (snd (fst x)) = false) a)
    by (intros a Fa; eapply Forall_impl; [|exact Fa]; intros [[? ?] ?] Y0; apply Y0).
  destruct (run_groups_good plain_host Options_default _ _ (proj1 (host_env _ plain_host_ok)) (channel_new_ok Options_default 0) (Bl _ R1)) as ([c1 o1] & X1 & X2 & _).
  rewrite E0 in X1. assert (c1 = c0) as -> by congruence. cbn [fst] in X2.
  destruct (run_groups_good plain_host Options_default (hellos n) c0 (proj1 (host_env _ plain_host_ok)) X2 (Bl _ R2)) as ([c out] & E & _ & Le). cbn [snd] in Le.
  exists c, out. split; [exact E0|]. split; [exact Sl|]. split; [exact E|].
  split; [rewrite Le; unfold hellos; clear; induction n as [|n IH]; [reflexivity|cbn [repeat concat]; rewrite app_length, IH; reflexivity]|].
  apply (C110_after_an_end_mark_not_shown plain_host Options_default 0 ps_groups good_morning (hellos n) c0 c (out0 ++ [Some last]) out 0x2204 false true VA (bs "Good morning") [0x20; 0x20; 0x20]
    plain_host_ok plain_host_utf8 eq_refl R); [discriminate|exists []; reflexivity| | | |reflexivity| | |discriminate| |exact E0|exact E].
  - apply Forall_app. split; [repeat constructor; right; reflexivity|]. apply hellos_all. repeat constructor; right; reflexivity.
  - repeat constructor; intros _; reflexivity.
  - repeat constructor.
  - cbn. intuition discriminate.
  - intros g _ _ X. exact X.
  - unfold hellos. clear. induction n as [|n IH]; [constructor|]. cbn [repeat concat]. unfold groups_of in *. rewrite map_app, flat_map_app. apply Forall_app. split; [|exact IH].
    repeat constructor; try (cbn; intuition discriminate).
Qed.
Print Assumptions C110_repeated_message_refuted.
