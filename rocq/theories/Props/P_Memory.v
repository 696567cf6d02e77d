(* C107: what a channel keeps in memory is bounded. *)
From Verif.Model Require Import Base Util Group Options Json Tmc Station Channel Input.
From Verif.Spec Require Import Session Host Cases Memory.
From Verif.Proofs Require Import Tac SessionP HostP MemoryP.
From Verif.Props Require Import P_Channel.

(* After any history of calls, everything a channel stores amounts to fewer than 8000000 bytes, numbers
   and table entries.  (Most of it is room for the names and frequencies of 65536 other networks; a file
   transfer has room for 16 files of 163840 bytes.) *)
Theorem C107_memory_is_bounded : forall env o c calls,
  host_ok env -> modest (env_ucs2 env) -> created o c -> Forall possible calls -> Forall words_fit calls ->
  exists c' lines, session env o c calls = Ok (c', lines) /\ channel_size c' < 8000000.
Proof.
  intros env o c calls H M Cr Po Wo. destruct (C22_no_call_fails env o c calls H Cr Po) as (c' & lines & E).
  exists c', lines. split; [exact E|]. exact (session_bounded env o c calls c' lines M Cr Wo E).
Qed.
Print Assumptions C107_memory_is_bounded.

(* The groups read from hexadecimal and TEF6686 text input are such groups, whatever the text is. *)
Theorem C107_text_input_has_such_words : forall o clock s,
  Forall sixteen_bit (read_hex_input o clock s) /\ Forall sixteen_bit (read_tef_input s).
Proof. intros o clock s. split; [apply hex_words|apply tef_words]. Qed.
Print Assumptions C107_text_input_has_such_words.

(* The memory does grow with what is received: the names of three other networks *)
Definition other_networks : list call :=
  [Group_in 0 (group4 0x2204 0xE400 0x4142 0x2201) 0; Group_in 0 (group4 0x2204 0xE401 0x4344 0x2201) 0;
   Group_in 0 (group4 0x2204 0xE400 0x4142 0x2202) 0; Group_in 0 (group4 0x2204 0xE400 0x4546 0x2203) 0;
   Group_in 0 (group4 0x2204 0xE401 0x4142 0x2203) 0; Group_in 0 (group4 0x2204 0xE404 0x0A0B 0x2203) 0].
Example C107_case :
  host_ok plain_host /\ modest (env_ucs2 plain_host) /\ Forall possible other_networks /\ Forall words_fit other_networks /\
  channel_size (Channel_new Options_default 0) = 866 /\
  match session plain_host Options_default (Channel_new Options_default 0) other_networks with
  | Ok (c, _) => channel_size c = 926
  | _ => False
  end.
Proof.
  split; [apply plain_host_ok|]. split; [intros b t E; discriminate E|]. split; [repeat constructor|].
  split; [repeat constructor; intros []; reflexivity|]. split; [reflexivity|].
  vm_compute. reflexivity.
Qed.
