(* C79: groups of the additional data streams. *)
From Verif.Model Require Import Base Util Group Options Tables Json Rft Tmc Station Channel.
From Verif.Spec Require Import JsonText Session Identity History Files Labels Channels Host Cases.
From Verif.Proofs Require Import Tac SessionP ShowP HostP TypeCP.
From Verif.Props Require Import P_Channel P_Radiotext P_Files.

Local Open Scope string_scope.
Local Open Scope N_scope.
Local Open Scope list_scope.

(* The line of a group of an additional data stream shows what its words mean, and nothing they do not say. *)
Theorem C79_words_shown : forall env o now c g w c' line b1 b2 b3 b4,
  host_ok env -> host_text env -> o_output_type o = OutJSON -> reachable env o c -> received_group (now, g, w) ->
  processGroup env o now c g w = Ok (c', Some line) -> words_c (g, w) = Some (b1, b2, b3, b4) ->
  shows_c line b1 b2 b3 b4.
Proof.
  intros env o now c g w c' line b1 b2 b3 b4 H T OJ Re R P W.
  apply (line_c env o now c g w c' line b1 b2 b3 b4 H T OJ (reachable_fine env o c H (host_text_txt env T) Re) R P W).
Qed.
Print Assumptions C79_words_shown.

(* With a block missing it shows nothing of its contents. *)
Theorem C79_incomplete : forall env o now c g w c' line,
  host_ok env -> host_text env -> o_output_type o = OutJSON -> reachable env o c -> received_group (now, g, w) ->
  processGroup env o now c g w = Ok (c', Some line) -> type_c g w = true -> all_received g = false ->
  line_at ["rft"] line = None /\ line_at ["open_data_app"] line = None.
Proof.
  intros env o now c g w c' line H T OJ Re R P Tc Ar.
  apply (line_c_lost env o now c g w c' line H T OJ (reachable_fine env o c H (host_text_txt env T) Re) R P Tc Ar).
Qed.
Print Assumptions C79_incomplete.

(* Segments of a file name the application that the station assigned last to their pipe.  gs0: groups until
   the program has settled on station p; gs1: its groups since then, with their lines out1. *)
Theorem C79_application_of_the_pipe : forall env o w0 p gs0 gs1 now g w c out0 out1 line q t n d,
  host_ok env -> host_text env -> o_output_type o = OutJSON ->
  Forall received_group (gs0 ++ gs1 ++ [(now, g, w)]) -> p <> 0 -> three p (pis gs0) -> Forall (stays p) (gs1 ++ [(now, g, w)]) ->
  length out0 = length gs0 -> run_groups env o (Channel_new o w0) (gs0 ++ gs1 ++ [(now, g, w)]) = Ok (c, out0 ++ out1 ++ [Some line]) ->
  segment_in (g, w) = Some (q, t, n, d) ->
  match last_assigned q (rev (decoded_in gs1 out1)) with
  | Some a => forall name, In (a, name) app_names -> says line ["open_data_app"; "app_name"] (VStr (bs name))
  | None => (forall x a, In x (groups_of gs0) -> assigned_in x <> Some (q, a)) -> line_at ["open_data_app"] line = None
  end.
Proof.
  intros env o w0 p gs0 gs1 now g w c out0 out1 line q t n d H T OJ F Np Th St L0 E Sg.
  unfold segment_in in Sg. destruct (type_c g w && all_received g && (blk_data (g_b1 g) / 4096 =? 2)) eqn:A; [|discriminate]. apply andb_prop in A. destruct A as [A A3]. apply N.eqb_eq in A3.
  assert (Eq : q = (blk_data (g_b1 g) / 256) mod 16) by congruence. clear Sg.
  assert (R : received_group (now, g, w)) by (apply Forall_app in F; destruct F as [_ F]; apply Forall_app in F; destruct F as [_ F]; inversion F; assumption). destruct R as (_ & L1 & _).
  assert (Wc : words_c (g, w) = Some (blk_data (g_b1 g), blk_data (g_b2 g), blk_data (g_b3 g), blk_data (g_b4 g))) by (unfold words_c; rewrite A; reflexivity).
  assert (Pu : purpose_of (blk_data (g_b1 g)) = Segment q).
  { subst q. revert A3. generalize (blk_data (g_b1 g)). intros b1 A3. unfold purpose_of. cbv zeta. replace (b1 / 256 =? 0) with false by (symmetry; apply N.eqb_neq; lia).
    replace ((32 <=? b1 / 256) && (b1 / 256 <? 48)) with true by (symmetry; apply andb_true_iff; rewrite N.leb_le, N.ltb_lt; lia). f_equal. lia. }
  pose proof (pipe_app env o w0 p gs0 gs1 now g w c out0 out1 line _ _ _ _ q H T OJ F Np Th St L0 E Wc Pu) as X.
  destruct (last_assigned q (rev (decoded_in gs1 out1))); [|exact X]. intros name I. unfold says. rewrite X, (app_named _ _ I). reflexivity.
Qed.
Print Assumptions C79_application_of_the_pipe.

(* --- cases --- *)
(* A pipe is assigned to traffic messages, the size of its file is announced, a segment follows *)
Definition tmc_pipe : list (Z * Group * N) := stream 11 [group4 0x8003 0xCD46 0x0A15 7; seg1 1].
Definition tmc_segment : Z * Group * N := ((20 * sec)%Z, seg0 1, 1).
Definition c_case : list (Z * Group * N) := ps_groups ++ tmc_pipe ++ [tmc_segment].
Example C79_case :
  let out0 := firstn 3 (outputs c_case) in let out1 := firstn 2 (skipn 3 (outputs c_case)) in let line := the_line Options_default c_case in
  Forall received_group c_case /\ three 0x2204 (pis ps_groups) /\ Forall (stays 0x2204) (tmc_pipe ++ [tmc_segment]) /\ length out0 = length ps_groups /\
  run_groups plain_host Options_default (Channel_new Options_default 0) c_case = Ok (fst (final Options_default c_case), out0 ++ out1 ++ [Some line]) /\
  segment_in (seg0 1, 1) = Some (3, 1, 0, [82; 101; 100; 115; 101]) /\
  last_assigned 3 (rev (decoded_in tmc_pipe out1)) = Some 0xCD46 /\
  says line ["open_data_app"; "app_name"] (VStr (bs "RDS-TMC: ALERT-C")) /\
  says line ["rft"; "data"; "byte_address"] (VNum (bs "0")) /\
  says line ["rft"; "data"; "segment_data"] (VArr [VNum (bs "82"); VNum (bs "101"); VNum (bs "100"); VNum (bs "115"); VNum (bs "101")]).
Proof.
  cbv zeta. split; [repeat constructor; reflexivity|]. split; [exists []; reflexivity|]. split; [repeat constructor; (left; reflexivity) || (right; reflexivity)|].
  split; [vm_compute; reflexivity|]. split; [vm_compute; reflexivity|]. split; [reflexivity|]. split; [vm_compute; reflexivity|]. split; [vm_compute; reflexivity|]. split; vm_compute; reflexivity.
Qed.
(* The announcement of the file: version 2, number 5, 65543 bytes, with a checksum *)
Example C79_announcement_case :
  let gs := ps_groups ++ stream 11 [group4 0x8003 0xCD46 0x0A15 7] in let line := the_line Options_default gs in
  run_groups plain_host Options_default (Channel_new Options_default 0) gs = Ok (fst (final Options_default gs), snd (final Options_default gs) ++ [Some line]) /\
  words_c (group4 0x8003 0xCD46 0x0A15 7, 1) = Some (0x8003, 0xCD46, 0x0A15, 7) /\ purpose_of 0x8003 = Assignment 3 /\
  says line ["rft"; "file_info"; "version"] (VNum (bs "2")) /\ says line ["rft"; "file_info"; "id"] (VNum (bs "5")) /\
  says line ["rft"; "file_info"; "size"] (VNum (bs "65543")) /\ says line ["rft"; "file_info"; "has_crc"] (VBool true) /\
  line_at ["rft"; "crc_info"] line = None.
Proof.
  cbv zeta. split; [vm_compute; reflexivity|]. split; [vm_compute; reflexivity|]. split; [reflexivity|]. split; [vm_compute; reflexivity|]. split; [vm_compute; reflexivity|].
  split; [vm_compute; reflexivity|]. split; vm_compute; reflexivity.
Qed.
(* The other purposes of the first word *)
Example C79_purposes_case : map purpose_of [0x0000; 0x2380; 0x4512; 0x8003; 0x8043; 0xC000] = [Tunnelled; Segment 3; Channel_data 5; Assignment 3; Assignment_other; Other_purpose].
Proof. reflexivity. Qed.
