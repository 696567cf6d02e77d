(* C88: what the options on the command line mean. *)
From Verif.Model Require Import Base Util Float Group Options Json Tmc Station Input Channel Dsp Main.
From Verif.Spec Require Import Session Host Program Demo CommandLine.
From Verif.Proofs Require Import Tac CommandP.
From Verif.Props Require Import P_Input.

Local Open Scope char_scope.
Local Open Scope N_scope.
Local Open Scope list_scope.

(* --- C88 --- *)
Theorem C88_accepted : forall ne ops extra o, Forall known ops -> getOptions ne ops extra = Ok o -> meant ne ops extra o.
Proof.
  intros ne ops extra o K E. destruct (getOptions_all ne ops extra K) as [(_ & _ & o' & E' & M)|(_ & m & E')]; rewrite E in E'; [|discriminate]. injection E' as <-. exact M.
Qed.
Print Assumptions C88_accepted.

Theorem C88_refused : forall ne ops extra, Forall known ops ->
  (exists m, getOptions ne ops extra = Throw m) <-> Exists (unacceptable ne) ops \/ at_odds ne ops.
Proof.
  intros ne ops extra K. destruct (getOptions_all ne ops extra K) as [(F & A & o & E & _)|(X & Y)]; [|tauto].
  split; [intros [m E']; congruence|]. intros [X|X]; [|contradiction]. rewrite Exists_exists in X. destruct X as (op & I & U). rewrite Forall_forall in F. elim (F op I U).
Qed.
Print Assumptions C88_refused.

(* The program: refused options end it with a message; -v, --help and arguments that are no options end it with what was
   asked for (usage for the latter), before any input is read. *)
Theorem C88_program : forall (D : Type) fuel (w : World D) ops extra, Forall known ops ->
  (Exists (unacceptable (w_numbers w)) ops \/ at_odds (w_numbers w) ops -> main fuel w ops extra = Ok (Some (EXIT_FAILURE, [Message]))) /\
  (~ (Exists (unacceptable (w_numbers w)) ops \/ at_odds (w_numbers w) ops) -> gives "v" ops \/ gives "?" ops \/ extra = true ->
   exists out, main fuel w ops extra = Ok (Some (if extra then EXIT_FAILURE else EXIT_SUCCESS, out)) /\
     (In Usage out <-> gives "?" ops \/ extra = true) /\ (In Version out <-> gives "v" ops) /\ all_lines out = []).
Proof.
  intros D fuel w ops extra K. unfold main. destruct (getOptions_all (w_numbers w) ops extra K) as [(F & A & o & E & M)|(X & m & E)]; rewrite E; [|tauto].
  assert (N : ~ (Exists (unacceptable (w_numbers w)) ops \/ at_odds (w_numbers w) ops)).
  { intros [X|X]; [|contradiction]. rewrite Exists_exists in X. destruct X as (op & I & U). rewrite Forall_forall in F. elim (F op I U). }
  split; [tauto|]. intros _ G. destruct M. assert (Q : o_early_exit o = true) by (apply m_stop; exact G). cbv zeta. rewrite Q.
  eexists. split; [f_equal; f_equal; f_equal; destruct extra, (o_init_error o); try reflexivity; [destruct m_error as [_ m_error]; specialize (m_error eq_refl)|destruct m_error as [m_error _]; specialize (m_error eq_refl)]; discriminate|].
  rewrite <- m_usage, <- m_version. destruct (o_print_usage o), (o_print_version o); cbn [app In all_lines flat_map]; (split; [split; intros H; [try reflexivity; repeat destruct H as [H|H]; discriminate H || destruct H|try discriminate H; auto]|split; [split; intros H; [try reflexivity; repeat destruct H as [H|H]; discriminate H || destruct H|try discriminate H; auto]|reflexivity]]).
Qed.
Print Assumptions C88_program.

(* An option that does not exist is not an error: getopt's answer to it is that to --help, and the program reports success. *)
Theorem C88_unknown_option_refuted : forall (D : Type) fuel (w : World D), main fuel w [OptChar "?" []] false = Ok (Some (EXIT_SUCCESS, [Usage])).
Proof. reflexivity. Qed.
Print Assumptions C88_unknown_option_refuted.

Example C88_case : let ops := [OptChar "h" []; OptNoFec; OptChar "i" (bs "bits"); OptChar "x" []; OptChar "o" (bs "json"); OptChar "t" (bs "%c"); OptChar "u" []] in
  Forall known ops /\ exists o, getOptions some_numbers ops false = Ok o /\ o_input_type o = ASCIIbits /\ o_output_type o = OutJSON /\ o_rbds o = true /\ o_use_fec o = false.
Proof. split; [apply known_all; vm_compute; reflexivity|]. eexists. split; [vm_compute; reflexivity|]. repeat split. Qed.
Example C88_refused_case : Forall known [OptChar "e" []; OptChar "f" (bs "x.wav")] /\ at_odds some_numbers [OptChar "e" []; OptChar "f" (bs "x.wav")] /\
  Exists (unacceptable some_numbers) [OptChar "c" (bs "33")] /\ at_odds some_numbers [OptChar "c" (bs "2"); OptChar "h" []] /\ at_odds some_numbers [OptChar "s" []; OptChar "b" []].
Proof.
  split; [apply known_all; vm_compute; reflexivity|]. split; [left; split; [exists []; left; reflexivity|vm_compute; reflexivity]|]. split; [left; right; vm_compute; intros [_ H]; apply H; reflexivity|].
  split; [right; left; split; [vm_compute; reflexivity|vm_compute; reflexivity]|]. right. right. split; [exists []; left; reflexivity|]. split; [vm_compute; reflexivity|vm_compute; discriminate].
Qed.
