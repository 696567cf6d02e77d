(* C27: RadioText never mixes two messages. *)
From Verif.Model Require Import Base Util Group Options Tables Json RdsString Tmc Station Channel.
From Verif.Spec Require Import Unicode JsonText Session Identity History Quality Texts Host Cases.
From Verif.Proofs Require Import Tac Numerals TextP UpdateP SessionP ChannelP HostP StringP PsP RtP RtMixP.
From Verif.Props Require Import P_Channel P_Radiotext.

Local Open Scope string_scope.
Local Open Scope N_scope.
Local Open Scope list_scope.

(* --- C27 (RadioText) --- *)
(* x is the first part of a message, and since then no parts of another message were received.  Then a RadioText on a line
   is the text of that message, whatever was received before, whether or not the A/B flag was changed, and whichever parts
   were missed -- unless the line is for a first part. *)
Theorem C27_radiotext_not_mixed : forall env o w0 gs now g w c out line v0 v message before x after,
  host_ok env -> o_output_type o = OutJSON -> Forall received_group (gs ++ [(now, g, w)]) ->
  run_groups env o (Channel_new o w0) (gs ++ [(now, g, w)]) = Ok (c, out ++ [Some line]) -> says line ["radiotext"] v0 ->
  let ps := flat_map rt_segment (decoded_in (gs ++ [(now, g, w)]) (out ++ [Some line])) in
  steady ps -> ps = before ++ x :: after -> p_pos x = 0 -> Forall (is_part v message) (x :: after) -> N.of_nat (length message) <= rt_size v ->
  p_pos (last after x) <> 0 ->
  exists s t, v0 = VStr s /\ text_of_message message t /\ trimmed (rds_text t) s.
Proof.
  intros env o w0 gs now g w c out line v0 v message before x after H OJ F E S ps Sy Ep P Fp L N0.
  destruct (rt_not_mixed env o w0 gs now g w c out line v0 v message before x after H OJ F E S Sy Ep P Fp L) as (s & Ev & [(t & T)|(rest & q & X & Pq & _)]).
  - exists s, t. tauto.
  - exfalso. apply N0. destruct rest as [|y rest]; [injection X as -> ->; exact P|]. injection X as -> ->. rewrite last_last. exact Pq.
Qed.
Print Assumptions C27_radiotext_not_mixed.

(* On the line of a later first part it is at least a beginning of that message (see C24: a text that was twice received up
   to the same place). *)
Theorem C27_radiotext_beginning : forall env o w0 gs now g w c out line v0 v message before x after,
  host_ok env -> o_output_type o = OutJSON -> Forall received_group (gs ++ [(now, g, w)]) ->
  run_groups env o (Channel_new o w0) (gs ++ [(now, g, w)]) = Ok (c, out ++ [Some line]) -> says line ["radiotext"] v0 ->
  let ps := flat_map rt_segment (decoded_in (gs ++ [(now, g, w)]) (out ++ [Some line])) in
  steady ps -> ps = before ++ x :: after -> p_pos x = 0 -> Forall (is_part v message) (x :: after) -> N.of_nat (length message) <= rt_size v ->
  after <> [] ->
  exists s t r, v0 = VStr s /\ message = t ++ r /\ ~ In end_of_text t /\ trimmed (rds_text t) s.
Proof.
  intros env o w0 gs now g w c out line v0 v message before x after H OJ F E S ps Sy Ep P Fp L N0.
  destruct (rt_not_mixed env o w0 gs now g w c out line v0 v message before x after H OJ F E S Sy Ep P Fp L) as (s & Ev & [(t & [Nt [->|[r ->]]] & T)|(rest & q & X & Pq & Y)]).
  - exists s, message, []. rewrite app_nil_r. tauto.
  - exists s, t, (end_of_text :: r). tauto.
  - destruct Y as (t & r & Em & _ & Nt & T); [intros ->; injection X as -> ->; congruence|]. exists s, t, r. tauto.
Qed.
Print Assumptions C27_radiotext_beginning.

(* The message "Hello" with an end mark, sent over another message with the same A/B flag; the middle comes later *)
Definition other_message : list (Z * Group * N) := at_times 11 [rt2 0x2410 0x4141 0x4141; rt2 0x2411 0x4242 0x4242; rt2 0x2412 0x430D 0x2020].
Definition over_it : list (Z * Group * N) := at_times 14 [rt2 0x2410 0x4865 0x6C6C; rt2 0x2412 0x650D 0x2020; rt2 0x2411 0x6F20 0x7468; rt2 0x2412 0x650D 0x2020;
  rt2 0x2410 0x4865 0x6C6C; rt2 0x2411 0x6F20 0x7468; rt2 0x2412 0x650D 0x2020].
Definition over : list (Z * Group * N) := ps_groups ++ other_message ++ over_it.
Example C27_radiotext_case : exists c out line, run_groups plain_host Options_default (Channel_new Options_default 0) over = Ok (c, out ++ [Some line]) /\
  says line ["radiotext"] (VStr (bs "Hello the")) /\
  let ps := flat_map rt_segment (decoded_in over (out ++ [Some line])) in
  exists x after, ps = firstn 3 ps ++ x :: after /\ p_pos x = 0 /\ p_pos (last after x) <> 0 /\
    Forall (is_part VA (bs "Hello the" ++ [0x0D; 0x20; 0x20])) (x :: after) /\ forallb (Bool.eqb true) (map p_flag ps) = true.
Proof.
  exists (fst (final Options_default over)), (snd (final Options_default over)), (the_line Options_default over).
  split; [vm_compute; reflexivity|]. split; [vm_compute; reflexivity|]. cbv zeta. eexists. eexists. split; [vm_compute; reflexivity|]. split; [reflexivity|]. split; [discriminate|].
  split; [|vm_compute; reflexivity].
  repeat (apply Forall_cons; [split; [reflexivity|]; split; [discriminate|]; intros [|[|[|[|i]]]] b E; cbn in E; (try (destruct i; discriminate)); injection E as <-; reflexivity|]). apply Forall_nil.
Qed.

(* That a message with an end mark is never shown cut off is false: if only its first part arrives, three times, "Hell" is
   shown as the complete text. *)
Definition cut_off : list (Z * Group * N) := ps_groups ++ at_times 11 [rt2 0x2410 0x4865 0x6C6C; rt2 0x2410 0x4865 0x6C6C; rt2 0x2410 0x4865 0x6C6C].
Theorem C27_cut_off_refuted : ~ (forall env o w0 gs now g w c out line v0 v message before x after,
  host_ok env -> o_output_type o = OutJSON -> Forall received_group (gs ++ [(now, g, w)]) ->
  run_groups env o (Channel_new o w0) (gs ++ [(now, g, w)]) = Ok (c, out ++ [Some line]) -> says line ["radiotext"] v0 ->
  let ps := flat_map rt_segment (decoded_in (gs ++ [(now, g, w)]) (out ++ [Some line])) in
  steady ps -> ps = before ++ x :: after -> p_pos x = 0 -> Forall (is_part v message) (x :: after) -> N.of_nat (length message) <= rt_size v ->
  In end_of_text message -> after <> [] ->
  exists s t, v0 = VStr s /\ text_of_message message t /\ trimmed (rds_text t) s).
Proof.
  intros X. set (hell := mkPart true VA 0 (bs "Hell")).
  specialize (X plain_host Options_default 0 (removelast cut_off) (13 * sec)%Z (rt2 0x2410 0x4865 0x6C6C) 0 (fst (final Options_default cut_off)) (snd (final Options_default cut_off))
    (the_line Options_default cut_off) (VStr (bs "Hell")) VA (bs "Hello" ++ [0x0D; 0x20; 0x20]) [] hell [hell; hell]).
  assert (Ps : flat_map rt_segment (decoded_in (removelast cut_off ++ [((13 * sec)%Z, rt2 0x2410 0x4865 0x6C6C, 0)]) (snd (final Options_default cut_off) ++ [Some (the_line Options_default cut_off)])) = [hell; hell; hell]) by (vm_compute; reflexivity).
  cbv zeta in X. rewrite Ps in X.
  assert (Ip : is_part VA (bs "Hello" ++ [0x0D; 0x20; 0x20]) hell).
  { split; [reflexivity|]. split; [discriminate|]. intros [|[|[|[|i]]]] b E; cbn in E; (try (destruct i; discriminate)); injection E as <-; reflexivity. }
  destruct X as (s & t & Es & (Nt & T) & Tr).
  - exact plain_host_ok.
  - reflexivity.
  - repeat constructor; vm_compute; auto.
  - vm_compute. reflexivity.
  - vm_compute. reflexivity.
  - intros a x y b E _. assert (I : forall z, In z [hell; hell; hell] -> z = hell) by (intros z [<-|[<-|[<-|[]]]]; reflexivity).
    rewrite (I x), (I y); [reflexivity| |]; rewrite E; apply in_or_app; right; [right; left|left]; reflexivity.
  - reflexivity.
  - reflexivity.
  - repeat (apply Forall_cons; [exact Ip|]). apply Forall_nil.
  - vm_compute. discriminate.
  - apply in_or_app. right. left. reflexivity.
  - discriminate.
  - injection Es as <-. destruct T as [->|[r E]]; [apply Nt; apply in_or_app; right; left; reflexivity|].
    assert (t = bs "Hello") as ->.
    { apply (first_end t (bs "Hello") r [0x20; 0x20] Nt); [|symmetry; exact E]. cbn. intros [X|[X|[X|[X|[X|[]]]]]]; discriminate X. }
    destruct Tr as (n & E2 & _). assert (E3 : nth_error (rds_text (bs "Hello")) 4 = nth_error (bs "Hell" ++ repeat 0x20 n) 4) by (rewrite E2; reflexivity). destruct n; vm_compute in E3; discriminate E3.
Qed.
Print Assumptions C27_cut_off_refuted.
