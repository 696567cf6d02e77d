(* C89: errors in PI codes. *)
From Verif.Model Require Import Base Util Float Group BlockSync Options Json Tmc Station Channel.
From Verif.Spec Require Import Unicode JsonText Session Identity History Host Cases Noise.
From Verif.Proofs Require Import Tac HostP NoiseP.
From Verif.Props Require Import P_Channel.

Local Open Scope string_scope.
Local Open Scope N_scope.
Local Open Scope list_scope.

(* --- C89 --- *)
(* Once a station has been confirmed, wrong PI codes in the groups of that station change nothing that is printed, so
   long as no two of them follow each other. *)
Theorem C89_isolated_wrong_codes : forall env o w0 gs0 gs gs' c out p, o_output_type o = OutJSON -> o_show_raw o = false -> p <> 0 -> three p (pis gs0) ->
  Forall (stays p) gs -> Forall2 misread gs gs' -> isolated p (pis gs') -> run_groups env o (Channel_new o w0) (gs0 ++ gs) = Ok (c, out) ->
  exists c', run_groups env o (Channel_new o w0) (gs0 ++ gs') = Ok (c', out).
Proof. exact isolated_errors. Qed.
Print Assumptions C89_isolated_wrong_codes.

Definition name_groups : list (Z * Group * N) := map (fun s => (0%Z, group4 0x2204 (0x0408 + s) 0xE0E0 (0x4142 + s * 0x0202), 0)) [0; 0; 0; 1; 2; 3].
Definition more_groups (codes : list N) : list (Z * Group * N) := map (fun p => (0%Z, group4 p 0x040B 0xE0E0 0x4748, 0)) codes ++ [(0%Z, group4 0x2204 0x040B 0xE0E0 0x4748, 0)].
Example C89_case : let good := more_groups [0x2204; 0x2204; 0x2204; 0x2204] in let bad := more_groups [0x1111; 0x2204; 0x3333; 0x2204] in
  three 0x2204 (pis (firstn 3 name_groups)) /\ Forall (stays 0x2204) good /\ Forall2 misread good bad /\ isolated 0x2204 (pis bad) /\
  exists c out line, run_groups plain_host Options_default (Channel_new Options_default 0) (name_groups ++ bad) = Ok (c, out ++ [Some line]) /\ says line ["ps"] (VStr (bs "ABCDEFGH")).
Proof.
  cbv zeta. split; [exists []; reflexivity|]. split; [repeat (constructor; [right; reflexivity|]); constructor|].
  split; [repeat (constructor; [right; eexists; eexists; split; [reflexivity|split; [reflexivity|reflexivity]]|]); constructor|].
  split; [intros before x y after E; do 4 (destruct before as [|? before]; [injection E; intros; subst; auto|]; cbn [app] in E; injection E as _ E); destruct before as [|? [|? before]]; discriminate E|].
  assert (Q : exists c out, run_groups plain_host Options_default (Channel_new Options_default 0) (name_groups ++ more_groups [0x1111; 0x2204; 0x3333; 0x2204]) =
    Ok (c, out ++ [Some (bs "{""pi"":""0x2204"",""group"":""0A"",""tp"":true,""prog_type"":""No PTY"",""di"":{""stereo"":false},""ta"":false,""is_music"":true,""ps"":""ABCDEFGH""}")])).
  { eexists. eexists (_ :: _ :: _ :: _ :: _ :: _ :: _ :: _ :: _ :: _ :: []). vm_compute. reflexivity. }
  destruct Q as (c & out & Q). exists c, out. eexists. split; [exact Q|]. vm_compute. reflexivity.
Qed.

(* Two different wrong codes in succession: when the right code has been received three times again, all that had been
   received before is forgotten. *)
Theorem C89_two_wrong_codes_refuted : let good := more_groups [0x2204; 0x2204; 0x2204; 0x2204; 0x2204] in let bad := more_groups [0x1111; 0x3333; 0x2204; 0x2204; 0x2204] in
  Forall2 misread good bad /\
  (exists c out line, run_groups plain_host Options_default (Channel_new Options_default 0) (name_groups ++ good) = Ok (c, out ++ [Some line]) /\ says line ["ps"] (VStr (bs "ABCDEFGH"))) /\
  (exists c out line, run_groups plain_host Options_default (Channel_new Options_default 0) (name_groups ++ bad) = Ok (c, out ++ [Some line]) /\ lacks line "ps").
Proof.
  cbv zeta. split; [|split].
  - repeat (constructor; [right; eexists; eexists; split; [reflexivity|split; [reflexivity|reflexivity]]|]); constructor.
  - assert (Q : exists c out, run_groups plain_host Options_default (Channel_new Options_default 0) (name_groups ++ more_groups [0x2204; 0x2204; 0x2204; 0x2204; 0x2204]) =
      Ok (c, out ++ [Some (bs "{""pi"":""0x2204"",""group"":""0A"",""tp"":true,""prog_type"":""No PTY"",""di"":{""stereo"":false},""ta"":false,""is_music"":true,""ps"":""ABCDEFGH""}")])).
    { eexists. eexists (_ :: _ :: _ :: _ :: _ :: _ :: _ :: _ :: _ :: _ :: _ :: []). vm_compute. reflexivity. }
    destruct Q as (c & out & Q). exists c, out. eexists. split; [exact Q|]. vm_compute. reflexivity.
  - assert (Q : exists c out, run_groups plain_host Options_default (Channel_new Options_default 0) (name_groups ++ more_groups [0x1111; 0x3333; 0x2204; 0x2204; 0x2204]) =
      Ok (c, out ++ [Some (bs "{""pi"":""0x2204"",""group"":""0A"",""tp"":true,""prog_type"":""No PTY"",""di"":{""stereo"":false},""ta"":false,""is_music"":true}")])).
    { eexists. eexists (_ :: _ :: _ :: _ :: _ :: _ :: _ :: _ :: _ :: _ :: _ :: []). vm_compute. reflexivity. }
    destruct Q as (c & out & Q). exists c, out. eexists. split; [exact Q|]. vm_compute. reflexivity.
Qed.
Print Assumptions C89_two_wrong_codes_refuted.
