(* C24, C25, C26: RadioText. *)
From Verif.Model Require Import Base Util Group Options Tables Json RdsString Tmc Station Channel.
From Verif.Spec Require Import Unicode JsonText Session Identity History Quality Texts Host Cases.
From Verif.Proofs Require Import Tac Numerals TextP UpdateP SessionP ChannelP HostP StringP PsP RtP.
From Verif.Props Require Import P_Channel.

Local Open Scope string_scope.
Local Open Scope N_scope.
Local Open Scope list_scope.

(* The last line of a run *)
Definition last_line (o : Options) (gs : list (Z * Group * N)) : option bytes :=
  match run_groups plain_host o (Channel_new o 0) gs with
  | Ok (_, out) => last out None
  | _ => None
  end.
(* The state and the other lines *)
Definition final (o : Options) (gs : list (Z * Group * N)) : Channel * list (option bytes) :=
  match run_groups plain_host o (Channel_new o 0) gs with
  | Ok (c, out) => (c, removelast out)
  | _ => (Channel_new o 0, [])
  end.
Definition the_line (o : Options) (gs : list (Z * Group * N)) : bytes :=
  match last_line o gs with Some l => l | None => [] end.
(* Groups with PI 2204, one second apart *)
Fixpoint at_times (t : Z) (l : list Group) : list (Z * Group * N) :=
  match l with
  | [] => []
  | g :: r => ((t * sec)%Z, g, 0) :: at_times (t + 1)%Z r
  end.
Definition rt2 (b2 b3 b4 : N) : Group := group4 0x2204 b2 b3 b4.
Definition partial_options : Options :=
  mkOptions false false true false false false false false false false false false true false
    (SpecFloat.S754_zero false) 1 MPX_stdin OutJSON [] [] (bs "%s").

(* --- C24 --- *)
Theorem C24_radiotext : forall env o w0 gs now g w c out line v,
  host_ok env -> o_output_type o = OutJSON -> Forall received_group (gs ++ [(now, g, w)]) ->
  run_groups env o (Channel_new o w0) (gs ++ [(now, g, w)]) = Ok (c, out ++ [Some line]) -> says line ["radiotext"] v ->
  let ps := flat_map rt_segment (decoded_in (gs ++ [(now, g, w)]) (out ++ [Some line])) in
  steady ps -> exists s, v = VStr s /\ rt_shown ps s.
Proof. exact rt_complete. Qed.
Print Assumptions C24_radiotext.

(* A text shown as not yet complete: the characters received without gaps, then blanks *)
Theorem C24_unfinished_radiotext : forall env o w0 gs now g w c out line v,
  host_ok env -> o_output_type o = OutJSON -> Forall received_group (gs ++ [(now, g, w)]) ->
  run_groups env o (Channel_new o w0) (gs ++ [(now, g, w)]) = Ok (c, out ++ [Some line]) -> says line ["partial_radiotext"] v ->
  let ps := flat_map rt_segment (decoded_in (gs ++ [(now, g, w)]) (out ++ [Some line])) in
  steady ps -> exists earlier msg v' l f k, ps = earlier ++ msg /\ uniform f v' msg /\
    gapless (part_writes msg) l /\ v = VStr (rds_text l ++ repeat 0x20 k).
Proof. exact rt_partial. Qed.
Print Assumptions C24_unfinished_radiotext.

(* "Hello" and an end mark; before, the last part of another message *)
Definition hello : list (Z * Group * N) :=
  at_times 11 [rt2 0x2403 0x4142 0x4344; rt2 0x2410 0x4865 0x6C6C; rt2 0x0408 0xE0E0 0x4142; rt2 0x2411 0x6F0D 0x2020].
Example C24_radiotext_case : exists c out line,
  run_groups plain_host Options_default (Channel_new Options_default 0) (ps_groups ++ hello) = Ok (c, out ++ [Some line]) /\
  says line ["radiotext"] (VStr (bs "Hello")) /\
  flat_map rt_segment (decoded_in (ps_groups ++ hello) (out ++ [Some line])) =
    [mkPart false VA 12 [0x41; 0x42; 0x43; 0x44]; mkPart true VA 0 [0x48; 0x65; 0x6C; 0x6C]; mkPart true VA 4 [0x6F; 0x0D; 0x20; 0x20]].
Proof.
  exists (fst (final Options_default (ps_groups ++ hello))), (snd (final Options_default (ps_groups ++ hello))).
  exists (the_line Options_default (ps_groups ++ hello)). split; [vm_compute; reflexivity|]. split; vm_compute; reflexivity.
Qed.
(* The same message without an end, twice, with partial texts shown: partial_radiotext, then radiotext *)
Definition no_end : list (Z * Group * N) :=
  at_times 11 [rt2 0x2410 0x4865 0x6C6C; rt2 0x2411 0x6F20 0x2020; rt2 0x2410 0x4865 0x6C6C; rt2 0x2411 0x6F20 0x2020].
Example C24_unfinished_case : exists line, last_line partial_options (ps_groups ++ no_end) = Some line /\
  says line ["partial_radiotext"] (VStr (bs "Hello" ++ repeat 0x20 59)).
Proof. eexists. split; [vm_compute; reflexivity|]. vm_compute. reflexivity. Qed.
Example C24_repeated_case : exists line,
  last_line Options_default (ps_groups ++ no_end ++ at_times 15 [rt2 0x2410 0x4865 0x6C6C]) = Some line /\
  says line ["radiotext"] (VStr (bs "Hello")).
Proof. eexists. split; [vm_compute; reflexivity|]. vm_compute. reflexivity. Qed.

(* If a station mixes 2A and 2B groups, characters are shown that were never received: a message of
   64 letters A arrives completely in 2A groups, then a part of it in a 2B group and again in a 2A
   group; the text shown as complete has 32 letters. *)
Definition mixed_versions : list (Z * Group * N) :=
  at_times 11 (map (fun n => rt2 (0x2400 + n) 0x4141 0x4141) (nseq 0 16) ++ [rt2 0x2C05 0x2204 0x4141; rt2 0x2405 0x4141 0x4141]).
Theorem C24_mixed_versions_refuted : exists gs c out line,
  run_groups plain_host Options_default (Channel_new Options_default 0) gs = Ok (c, out ++ [Some line]) /\
  (forall i, i < 64 -> last_at i (part_writes (flat_map rt_segment (decoded_in gs (out ++ [Some line])))) = Some 0x41) /\
  says line ["radiotext"] (VStr (repeat 0x41 32)).
Proof.
  exists (ps_groups ++ mixed_versions), (fst (final Options_default (ps_groups ++ mixed_versions))), (snd (final Options_default (ps_groups ++ mixed_versions))).
  exists (the_line Options_default (ps_groups ++ mixed_versions)). split; [vm_compute; reflexivity|]. split; [|vm_compute; reflexivity].
  set (ws := part_writes _). vm_compute in ws. intros i Hi.
  assert (E : forallb (fun i => match last_at i ws with Some b => b =? 0x41 | None => false end) (nseq 0 64) = true) by (vm_compute; reflexivity).
  rewrite forallb_forall in E. specialize (E i ltac:(apply nseq_In; lia)). destruct (last_at i ws) as [b|]; [|discriminate]. f_equal. apply N.eqb_eq. exact E.
Qed.
Print Assumptions C24_mixed_versions_refuted.

(* --- C25 --- *)
(* gs0 is any history after which station p is confirmed.  In what follows, the parts of RadioText,
   all with the same A/B flag, are the characters of l in order; t is l up to the end mark, or all of
   l if l fills all positions. *)
Theorem C25_message_received_in_order_is_shown : forall env o w0 gs0 gs1 now g c out p f v l t,
  host_ok env -> host_text env -> o_output_type o = OutJSON ->
  let gs := gs1 ++ [(now, g, 0)] in
  Forall received_group (gs0 ++ gs) -> p <> 0 -> three p (pis gs0) -> Forall (stays p) gs ->
  Forall (fun x => rt_segment (snd (fst x), snd x) <> [] -> carried_pi x = Some p) gs ->
  rt_segment (g, 0) <> [] ->
  uniform f v (flat_map rt_segment (groups_of gs)) -> part_writes (flat_map rt_segment (groups_of gs)) = place 0 l ->
  no_plus (groups_of (gs0 ++ gs)) (groups_of gs) ->
  (exists r, l = t ++ end_of_text :: r) \/ (l = t /\ N.of_nat (length l) = rt_size v) -> ~ In end_of_text t ->
  run_groups env o (Channel_new o w0) (gs0 ++ gs) = Ok (c, out) ->
  exists out' line s, out = out' ++ [Some line] /\ says line ["radiotext"] (VStr s) /\ trimmed (rds_text t) s.
Proof. exact rt_round_trip. Qed.
Print Assumptions C25_message_received_in_order_is_shown.

Definition hello_only : list (Z * Group * N) :=
  at_times 12 [rt2 0x2410 0x4865 0x6C6C; rt2 0x0408 0xE0E0 0x4142; rt2 0x2411 0x6F0D 0x2020].
Definition before_hello : list (Z * Group * N) := ps_groups ++ at_times 11 [rt2 0x2403 0x4142 0x4344].
Example C25_case : Forall received_group (before_hello ++ hello_only) /\ three 0x2204 (pis before_hello) /\ Forall (stays 0x2204) hello_only /\
  Forall (fun x => rt_segment (snd (fst x), snd x) <> [] -> carried_pi x = Some 0x2204) hello_only /\
  uniform true VA (flat_map rt_segment (groups_of hello_only)) /\
  part_writes (flat_map rt_segment (groups_of hello_only)) = place 0 (bs "Hello" ++ end_of_text :: [0x20; 0x20]) /\
  no_plus (groups_of (before_hello ++ hello_only)) (groups_of hello_only) /\
  exists line, last_line Options_default (before_hello ++ hello_only) = Some line /\ says line ["radiotext"] (VStr (bs "Hello")).
Proof.
  split; [repeat constructor; reflexivity|]. split; [exists [0x2204]; reflexivity|]. split; [repeat constructor; left; reflexivity|].
  split; [repeat constructor; intros _; reflexivity|]. split; [repeat constructor; reflexivity|]. split; [reflexivity|]. split; [intros g _ _ []|].
  eexists. split; [vm_compute; reflexivity|]. vm_compute. reflexivity.
Qed.

(* --- C26 --- *)
(* x and y are parts received one after the other, with different A/B flags: what is shown afterwards
   is made of y and later parts.  Excepted is the very group that changes the flag, if it is the first
   of a message. *)
Theorem C26_flag_change_clears : forall env o w0 gs now g w c out line v a x y b,
  host_ok env -> o_output_type o = OutJSON -> Forall received_group (gs ++ [(now, g, w)]) ->
  run_groups env o (Channel_new o w0) (gs ++ [(now, g, w)]) = Ok (c, out ++ [Some line]) -> says line ["radiotext"] v ->
  let ps := flat_map rt_segment (decoded_in (gs ++ [(now, g, w)]) (out ++ [Some line])) in
  steady ps -> ps = a ++ x :: y :: b -> p_flag x <> p_flag y -> b <> [] \/ p_pos y <> 0 ->
  exists s, v = VStr s /\ rt_made_of (y :: b) s.
Proof.
  intros env o w0 gs now g w c out line v a x y b H OJ F E S ps Sy Ep N0 C.
  destruct (rt_complete env o w0 gs now g w c out line v H OJ F E S Sy) as (s & Ev & R). exists s. split; [exact Ev|].
  fold ps in R. rewrite Ep in R. exact (flag_change a x y b s R N0 C).
Qed.
Print Assumptions C26_flag_change_clears.
Theorem C26_flag_change_clears_unfinished : forall env o w0 gs now g w c out line v a x y b,
  host_ok env -> o_output_type o = OutJSON -> Forall received_group (gs ++ [(now, g, w)]) ->
  run_groups env o (Channel_new o w0) (gs ++ [(now, g, w)]) = Ok (c, out ++ [Some line]) -> says line ["partial_radiotext"] v ->
  let ps := flat_map rt_segment (decoded_in (gs ++ [(now, g, w)]) (out ++ [Some line])) in
  steady ps -> ps = a ++ x :: y :: b -> p_flag x <> p_flag y ->
  exists l k earlier msg, y :: b = earlier ++ msg /\ gapless (part_writes msg) l /\ v = VStr (rds_text l ++ repeat 0x20 k).
Proof.
  intros env o w0 gs now g w c out line v a x y b H OJ F E S ps Sy Ep N0.
  destruct (rt_partial env o w0 gs now g w c out line v H OJ F E S Sy) as (e & m & v' & l & f & k & E1 & U & G & Ev).
  fold ps in E1. rewrite Ep in E1. destruct (flag_suffix _ _ _ _ _ _ _ _ (eq_sym E1) U N0) as [k0 K]. exists l, k, k0, m. auto.
Qed.
Print Assumptions C26_flag_change_clears_unfinished.

Example C26_case : exists c out line, let gs := ps_groups ++ hello in
  run_groups plain_host Options_default (Channel_new Options_default 0) gs = Ok (c, out ++ [Some line]) /\
  says line ["radiotext"] (VStr (bs "Hello")) /\
  exists x y b, flat_map rt_segment (decoded_in gs (out ++ [Some line])) = [] ++ x :: y :: b /\ p_flag x <> p_flag y /\ b <> [].
Proof.
  exists (fst (final Options_default (ps_groups ++ hello))), (snd (final Options_default (ps_groups ++ hello))).
  exists (the_line Options_default (ps_groups ++ hello)). split; [vm_compute; reflexivity|]. split; [vm_compute; reflexivity|]. eexists _, _, _. split; [vm_compute; reflexivity|]. split; discriminate.
Qed.

(* The group that changes the flag shows the message before the change, if that had no end and was
   received twice. *)
Definition changing : list (Z * Group * N) := no_end ++ at_times 15 [rt2 0x2400 0x5858 0x5858].
Theorem C26_changing_group_refuted : exists gs c out line,
  run_groups plain_host Options_default (Channel_new Options_default 0) gs = Ok (c, out ++ [Some line]) /\
  map p_flag (flat_map rt_segment (decoded_in gs (out ++ [Some line]))) = [true; true; true; true; false] /\
  last (flat_map rt_segment (decoded_in gs (out ++ [Some line]))) (mkPart true VA 0 []) = mkPart false VA 0 (bs "XXXX") /\
  says line ["radiotext"] (VStr (bs "Hello")).
Proof.
  exists (ps_groups ++ changing), (fst (final Options_default (ps_groups ++ changing))), (snd (final Options_default (ps_groups ++ changing))).
  exists (the_line Options_default (ps_groups ++ changing)). split; [vm_compute; reflexivity|]. repeat split; vm_compute; reflexivity.
Qed.
Print Assumptions C26_changing_group_refuted.
