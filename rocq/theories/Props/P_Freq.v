(* C32, C33, C67, C68: lists of alternative frequencies in groups 0A. *)
From Verif.Model Require Import Base Util Group Options Tables Json Freq RdsString Tmc Station Channel.
From Verif.Spec Require Import Numerals Frequencies Unicode JsonText Session Identity History Quality Texts Host Cases.
From Verif.Proofs Require Import Tac Numerals TextP UpdateP SessionP ChannelP HostP StringP PsP AfP AfSoundP.
From Verif.Props Require Import P_Channel P_Radiotext.

Local Open Scope string_scope.
Local Open Scope N_scope.
Local Open Scope list_scope.

(* --- C32 --- *)
(* gs0 is any history after which station p is confirmed; gs1 ++ [g] is anything of the same station.
   Whatever was received before, when the last codes received are a whole list of different
   frequencies, the line of the last of its groups shows exactly this list. *)
Theorem C32_method_a : forall env o w0 gs0 gs1 now g w c out p earlier evs c1 c2 fs,
  host_ok env -> host_text env -> o_output_type o = OutJSON ->
  let gs := gs1 ++ [(now, g, w)] in
  Forall received_group (gs0 ++ gs) -> p <> 0 -> three p (pis gs0) -> Forall (stays p) gs ->
  Forall (fun x => af_events (snd (fst x), snd x) <> [] -> carried_pi x = Some p) gs ->
  af_events (g, w) <> [] ->
  flat_map af_events (groups_of gs) = earlier ++ evs ++ [AfCodes c1 c2] ->
  af_transmission fs (codes_of (evs ++ [AfCodes c1 c2])) -> c1 <> filler \/ c2 <> filler ->
  NoDup (map freq_kHz fs) ->
  run_groups env o (Channel_new o w0) (gs0 ++ gs) = Ok (c, out) ->
  exists out' line, out = out' ++ [Some line] /\ shows_numbers line ["alt_frequencies_a"] (map freq_kHz fs) /\ lacks line "alt_frequencies_b".
Proof. exact method_a. Qed.
Print Assumptions C32_method_a.

(* --- C33 --- *)
(* The same for a list by method B, of which no group was lost *)
Theorem C33_method_b : forall env o w0 gs0 gs1 now g w c out p earlier evs c1 c2 fs tuned es,
  host_ok env -> host_text env -> o_output_type o = OutJSON ->
  let gs := gs1 ++ [(now, g, w)] in
  Forall received_group (gs0 ++ gs) -> p <> 0 -> three p (pis gs0) -> Forall (stays p) gs ->
  Forall (fun x => af_events (snd (fst x), snd x) <> [] -> carried_pi x = Some p) gs ->
  af_events (g, w) <> [] ->
  flat_map af_events (groups_of gs) = earlier ++ evs ++ [AfCodes c1 c2] -> ~ In AfMissed evs ->
  af_transmission fs (codes_of (evs ++ [AfCodes c1 c2])) -> c1 <> filler \/ c2 <> filler ->
  map freq_kHz fs = b_list tuned es -> es <> [] -> Forall (fun e => entry_freq e <> tuned) es ->
  NoDup (same_programme es) -> NoDup (regional_variants es) ->
  run_groups env o (Channel_new o w0) (gs0 ++ gs) = Ok (c, out) ->
  exists out' line, out = out' ++ [Some line] /\
    (exists t, says line ["alt_frequencies_b"; "tuned_frequency"] (VNum t) /\ numeral 10 t = Some tuned) /\
    shows_numbers line ["alt_frequencies_b"; "same_programme"] (same_programme es) /\
    shows_numbers line ["alt_frequencies_b"; "regional_variants"] (regional_variants es) /\
    lacks line "alt_frequencies_a".
Proof. exact method_b. Qed.
Print Assumptions C33_method_b.

(* After a list that was broken off: 3 frequencies 88.1 MHz, 198 kHz (LF) and 99.0 MHz, with a filler;
   and 98.0 MHz tuned with 97.0 and 99.5 MHz of the same programme and 96.0 MHz a regional variant *)
Definition list_a : list (Z * Group * N) :=
  at_times 11 [rt2 0x0408 (224 * 256 + 4 * 256 + 50) 0x4142; rt2 0x0409 (227 * 256 + 6) 0x4344; rt2 0x2400 0x4142 0x4344;
    rt2 0x0408 (250 * 256 + 6) 0x4142; rt2 0x0409 (205 * 256 + 115) 0x4344].
Definition fs_a : list tx_freq := [TxFM 6; TxLFMF 6; TxFM 115].
Example C32_case : Forall received_group (ps_groups ++ list_a) /\ three 0x2204 (pis ps_groups) /\ Forall (stays 0x2204) list_a /\
  Forall (fun x => af_events (snd (fst x), snd x) <> [] -> carried_pi x = Some 0x2204) list_a /\
  flat_map af_events (groups_of list_a) = [AfCodes 228 50] ++ [AfCodes 227 6; AfCodes 250 6] ++ [AfCodes 205 115] /\
  af_transmission fs_a (codes_of ([AfCodes 227 6; AfCodes 250 6] ++ [AfCodes 205 115])) /\ NoDup (map freq_kHz fs_a) /\
  exists line, last_line Options_default (ps_groups ++ list_a) = Some line /\
    says line ["alt_frequencies_a"] (VArr [VNum (bs "88100"); VNum (bs "198"); VNum (bs "99000")]).
Proof.
  split; [repeat constructor; reflexivity|]. split; [exists []; reflexivity|]. split; [repeat constructor; left; reflexivity|].
  split; [repeat constructor; intros _; reflexivity|]. split; [reflexivity|].
  split; [split; [cbn; lia|split; [cbn; lia|]]; eexists; split; [reflexivity|]|].
  - apply (listed_freq (TxFM 6)); [cbn; lia|]. apply (listed_freq (TxLFMF 6)); [cbn; lia|]. apply listed_filler. apply (listed_freq (TxFM 115)); [cbn; lia|]. constructor.
  - split; [repeat constructor; vm_compute; intuition discriminate|].
    eexists. split; [vm_compute; reflexivity|]. vm_compute. reflexivity.
Qed.
Definition list_b : list (Z * Group * N) :=
  at_times 11 [rt2 0x0408 (231 * 256 + 105) 0x4142; rt2 0x0409 (95 * 256 + 105) 0x4344; rt2 0x0408 (105 * 256 + 120) 0x4142; rt2 0x0409 (105 * 256 + 85) 0x4344].
Definition fs_b : list tx_freq := map TxFM [105; 95; 105; 105; 120; 105; 85].
Definition es_b : list b_entry := [SameProgramme 97000; SameProgramme 99500; RegionalVariant 96000].
Example C33_case : Forall received_group (ps_groups ++ list_b) /\ Forall (stays 0x2204) list_b /\
  Forall (fun x => af_events (snd (fst x), snd x) <> [] -> carried_pi x = Some 0x2204) list_b /\
  flat_map af_events (groups_of list_b) = [] ++ [AfCodes 231 105; AfCodes 95 105; AfCodes 105 120] ++ [AfCodes 105 85] /\
  af_transmission fs_b (codes_of ([AfCodes 231 105; AfCodes 95 105; AfCodes 105 120] ++ [AfCodes 105 85])) /\ map freq_kHz fs_b = b_list 98000 es_b /\
  exists line, last_line Options_default (ps_groups ++ list_b) = Some line /\
    says line ["alt_frequencies_b"; "tuned_frequency"] (VNum (bs "98000")) /\
    says line ["alt_frequencies_b"; "same_programme"] (VArr [VNum (bs "97000"); VNum (bs "99500")]) /\
    says line ["alt_frequencies_b"; "regional_variants"] (VArr [VNum (bs "96000")]).
Proof.
  split; [repeat constructor; reflexivity|]. split; [repeat constructor; left; reflexivity|].
  split; [repeat constructor; intros _; reflexivity|]. split; [reflexivity|].
  split; [split; [cbn; lia|split; [cbn; lia|]]; eexists; split; [reflexivity|]|].
  - repeat (apply (listed_freq (TxFM _)); [cbn; lia|]). constructor.
  - split; [reflexivity|].
    eexists. split; [vm_compute; reflexivity|]. split; [|split]; vm_compute; reflexivity.
Qed.

(* --- C67 --- *)
(* Every list that is shown is what was received since a count code: as many frequencies as it
   announced (fewer for a partial list), all of them and in order. *)
Theorem C67_shown_as_received : forall env o w0 gs now g w c out line, host_ok env -> o_output_type o = OutJSON -> Forall received_group (gs ++ [(now, g, w)]) ->
  run_groups env o (Channel_new o w0) (gs ++ [(now, g, w)]) = Ok (c, out ++ [Some line]) ->
  let codes := codes_of (flat_map af_events (decoded_in (gs ++ [(now, g, w)]) (out ++ [Some line]))) in
  (forall v, says line ["alt_frequencies_a"] v -> exists freqs, numbers v freqs /\ since_count codes (N.of_nat (length freqs)) freqs) /\
  (forall v, says line ["partial_alt_frequencies"] v -> exists freqs n, numbers v freqs /\ since_count codes n freqs /\ N.of_nat (length freqs) < n) /\
  (forall v, says line ["alt_frequencies_b"] v -> exists tuned es, since_count codes (N.of_nat (length (b_list tuned es))) (b_list tuned es) /\
     (exists t, says line ["alt_frequencies_b"; "tuned_frequency"] (VNum t) /\ numeral 10 t = Some tuned) /\
     shows_numbers line ["alt_frequencies_b"; "same_programme"] (same_programme es) /\
     shows_numbers line ["alt_frequencies_b"; "regional_variants"] (regional_variants es)).
Proof. exact af_sound. Qed.
Print Assumptions C67_shown_as_received.
Example C67_case :
  (exists line, last_line partial_options (ps_groups ++ firstn 4 list_a) = Some line /\
     says line ["partial_alt_frequencies"] (VArr [VNum (bs "88100"); VNum (bs "198")])) /\
  since_count [228; 50; 227; 6; 250; 6] 3 [88100; 198] /\ since_count [228; 50; 227; 6; 250; 6; 205; 115] 3 [88100; 198; 99000].
Proof.
  split; [eexists; split; [vm_compute; reflexivity|]; vm_compute; reflexivity|].
  split; [exists [228; 50], [6; 250; 6], false|exists [228; 50], [6; 250; 6; 205; 115], false]; (split; [reflexivity|]; split; [lia|reflexivity]).
Qed.

(* --- C68 --- *)
(* What was received since the last count code are some of the frequencies it announced, the others
   being lost.  Then a list shown as complete has them all: it is the transmitted list. *)
Theorem C68_complete_list_is_whole : forall env o w0 gs now g w c out line pre fs got kept, host_ok env -> o_output_type o = OutJSON -> Forall received_group (gs ++ [(now, g, w)]) ->
  run_groups env o (Channel_new o w0) (gs ++ [(now, g, w)]) = Ok (c, out ++ [Some line]) ->
  codes_of (flat_map af_events (decoded_in (gs ++ [(now, g, w)]) (out ++ [Some line]))) = pre ++ (224 + N.of_nat (length fs)) :: kept ->
  (1 <= length fs <= 25)%nat -> listed got kept -> some_of got fs ->
  (forall v, says line ["alt_frequencies_a"] v -> numbers v (map freq_kHz fs)) /\
  (forall v, says line ["alt_frequencies_b"] v -> exists tuned es, b_list tuned es = map freq_kHz fs /\
     (exists t, says line ["alt_frequencies_b"; "tuned_frequency"] (VNum t) /\ numeral 10 t = Some tuned) /\
     shows_numbers line ["alt_frequencies_b"; "same_programme"] (same_programme es) /\
     shows_numbers line ["alt_frequencies_b"; "regional_variants"] (regional_variants es)).
Proof.
  intros env o w0 gs now g w c out line pre fs got kept H OJ F E C L Li S.
  destruct (af_sound env o w0 gs now g w c out line H OJ F E) as (A & _ & B). split.
  - intros v X. destruct (A v X) as (freqs & Nv & Sc). rewrite <- (since_whole _ _ _ _ _ _ C L Li S Sc). exact Nv.
  - intros v X. destruct (B v X) as (t & es & Sc & R). exists t, es. split; [exact (since_whole _ _ _ _ _ _ C L Li S Sc)|exact R].
Qed.
Print Assumptions C68_complete_list_is_whole.

(* Two repetitions of a list of five frequencies; the second group of the first repetition is lost *)
Definition lossy_list : list (Z * Group * N) :=
  let g1 := rt2 0x0408 (229 * 256 + 6) 0x4142 in let g2 := rt2 0x0409 (15 * 256 + 25) 0x4344 in let g3 := rt2 0x0409 (35 * 256 + 45) 0x4344 in
  ps_groups ++ at_times 11 [g1; g3; g1; g2].
Definition lossy_last : Z * Group * N := ((30 * sec)%Z, rt2 0x0409 (35 * 256 + 45) 0x4344, 0).
Definition lossy_run := run_groups plain_host Options_default (Channel_new Options_default 0) (lossy_list ++ [lossy_last]).
Example C68_case : exists c out line, lossy_run = Ok (c, out ++ [Some line]) /\
  says line ["alt_frequencies_a"] (VArr (map (fun s => VNum (bs s)) ["88100"; "89000"; "90000"; "91000"; "92000"])) /\
  skipn 2 (codes_of (flat_map af_events (decoded_in (lossy_list ++ [lossy_last]) (out ++ [Some line])))) = [229; 6; 35; 45] ++ 229 :: [6; 15; 25; 35; 45] /\
  some_of (map TxFM [6; 35; 45]) (map TxFM [6; 15; 25; 35; 45]).
Proof.
  exists (match lossy_run with Ok (c, _) => c | _ => Channel_new Options_default 0 end).
  exists (match lossy_run with Ok (_, out) => removelast out | _ => [] end).
  exists (match lossy_run with Ok (_, out) => match last out None with Some l => l | None => [] end | _ => [] end).
  split; [vm_compute; reflexivity|]. split; [vm_compute; reflexivity|]. split; [vm_compute; reflexivity|].
  cbn [map]. apply some_kept, some_lost, some_lost, some_kept, some_kept, some_nil.
Qed.

(* If a count code is lost too, a list shown as complete need not have been transmitted: five frequencies in three groups g1 g2 g3,
   repeated; the third group and the first group of the repetition are lost. *)
Theorem C68_lost_groups_refuted : exists g1 g2 g3 fs line freqs,
  af_transmission fs (codes_of (flat_map af_events [(g1, 0); (g2, 0); (g3, 0)])) /\ NoDup (map freq_kHz fs) /\
  Forall received_group (at_times 11 [g1; g2; g2]) /\
  last_line Options_default (ps_groups ++ at_times 11 [g1; g2; g2]) = Some line /\
  says line ["alt_frequencies_a"] (VArr freqs) /\
  freqs = map (fun s => VNum (bs s)) ["88100"; "89000"; "90000"; "89000"; "90000"] /\
  map freq_kHz fs = [88100; 89000; 90000; 91000; 92000].
Proof.
  exists (rt2 0x0408 (229 * 256 + 6) 0x4142), (rt2 0x0409 (15 * 256 + 25) 0x4344), (rt2 0x0409 (35 * 256 + 45) 0x4344), (map TxFM [6; 15; 25; 35; 45]).
  do 2 eexists. split; [split; [cbn; lia|split; [cbn; lia|]]; eexists; split; [reflexivity|]|].
  - repeat (apply (listed_freq (TxFM _)); [cbn; lia|]). constructor.
  - split; [repeat constructor; vm_compute; intuition discriminate|]. split; [repeat constructor; reflexivity|].
    split; [vm_compute; reflexivity|]. split; [vm_compute; reflexivity|]. split; [vm_compute; reflexivity|reflexivity].
Qed.
Print Assumptions C68_lost_groups_refuted.
