(* C70 to C74: flags, slow labelling, other networks, announcements of applications, and data for which no application is announced. *)
From Verif.Model Require Import Base Util Group Options Tables Json Freq RdsString Tmc Station Channel.
From Verif.Spec Require Import Numerals Unicode JsonText Session Identity History Quality Frequencies Texts Apps Fields Labels Host Cases.
From Verif.Proofs Require Import Tac Numerals HostP ShowP ChannelP FieldsP LabelsP DataP.
From Verif.Props Require Import P_Channel P_Fields P_Radiotext.

Local Open Scope string_scope.
Local Open Scope N_scope.
Local Open Scope list_scope.

(* --- C70 --- *)
(* Groups 0A, 0B and 15B: traffic announcement, music or speech, and the bit of the decoder identification that the
   last two bits select *)
Theorem C70_flags : forall env o now c g c' line n v, host_ok env -> host_text env -> o_output_type o = OutJSON -> reachable env o c ->
  received_group (now, g, 0) -> processGroup env o now c g 0 = Ok (c', Some line) ->
  is_type g n v -> (n = 0 /\ v <> VC) \/ (n = 15 /\ v = VB) -> blk_is_received (g_b2 g) = true ->
  let b2 := blk_data (g_b2 g) in
  says line ["ta"] (VBool (N.testbit b2 4)) /\ says line ["is_music"] (VBool (N.testbit b2 3)) /\
  says line ["di"; nth (N.to_nat (b2 mod 4)) di_names EmptyString] (VBool (N.testbit b2 2)).
Proof.
  intros env o now c g c' line n v H T OJ Re Rg P Ty [[-> V]|[-> ->]] R2.
  - exact (flags_0 env o now c g c' line H T OJ Re Rg P v V Ty).
  - exact (flags_15 env o now c g c' line H T OJ Re Rg P Ty R2).
Qed.
Print Assumptions C70_flags.

Example C70_case : is_type (group4 0x2204 0x0417 0xE0CD 0x2020) 0 VA /\ is_type (g_put_type (group4 0x2204 0xFC0B 0x2204 0xFC0B) (mkGroupType 15 VB) true) 15 VB /\
  exists line, line_after 0x0417 0xE0CD 0x2020 = Some line /\ says line ["ta"] (VBool true) /\ says line ["is_music"] (VBool false) /\ says line ["di"; "stereo"] (VBool true).
Proof. split; [split; reflexivity|]. split; [split; reflexivity|]. eexists. split; [vm_compute; reflexivity|]. repeat split; vm_compute; reflexivity. Qed.

(* --- C71 --- *)
(* Groups 1A: whether the programme is linked, and what the variant in bits 12 to 14 of block 3 says; nothing of the others *)
Theorem C71_slow_labelling : forall env o now c g c' line p, host_ok env -> host_text env -> o_output_type o = OutJSON -> reachable env o c ->
  received_group (now, g, 0) -> processGroup env o now c g 0 = Ok (c', Some line) ->
  is_type g 1 VA -> blk_is_received (g_b3 g) = true -> blk_is_received (g_b4 g) = true -> station_of c' = Some p ->
  let b3 := blk_data (g_b3 g) in let variant := (b3 / 2 ^ 12) mod 2 ^ 3 in
  says line ["has_linkage"] (VBool (N.testbit b3 15)) /\
  if_value ((variant =? 0) && negb (b3 mod 256 =? 0)) line ["country"] (VStr (country_name (p / 2 ^ 12 mod 2 ^ 4) (b3 mod 256))) /\
  if_n (variant =? 1) line ["tmc_id"] (b3 mod 2 ^ 12) /\
  if_value (variant =? 3) line ["language"] (VStr (language_name (b3 mod 256))) /\
  if_x (variant =? 6) 3 line ["slc_broadcaster_bits"] (b3 mod 2 ^ 11) /\
  if_n (variant =? 7) line ["ews"] (b3 mod 2 ^ 12).
Proof. intros env o now c g c' line p H T OJ Re Rg P. exact (labels env o now c g c' line H T OJ Re Rg P p). Qed.
Print Assumptions C71_slow_labelling.

(* The countries of Europe *)
Theorem C71_european_countries : forall ecc row digit, In (ecc, row) european -> 1 <= digit <= 15 ->
  country_name digit ecc = bs (nth (N.to_nat (digit - 1)) row EmptyString).
Proof.
  intros ecc row digit I [D1 D2].
  assert (S : forallb (fun x => forallb (fun d => bytes_eqb (country_name d (fst x)) (bs (nth (N.to_nat (d - 1)) (snd x) EmptyString))) (nseq 1 15)) european = true)
    by (vm_compute; reflexivity).
  rewrite forallb_forall in S. specialize (S _ I). rewrite forallb_forall in S. apply ShowP.bytes_eqb_eq. apply (S digit), nseq_In; lia.
Qed.
Print Assumptions C71_european_countries.

Example C71_case :
  (exists line, line_after 0x1400 0x00E1 0x0000 = Some line /\ says line ["country"] (VStr (bs "cy")) /\ line_at ["language"] line = None) /\
  (exists line, line_after 0x1400 0x3027 0x0000 = Some line /\ says line ["language"] (VStr (bs "Finnish")) /\ line_at ["country"] line = None) /\
  (exists line, line_after 0x1400 0x9123 0x0000 = Some line /\ says line ["has_linkage"] (VBool true) /\ says line ["tmc_id"] (VNum (bs "291"))) /\
  (exists line, line_after 0x1400 0x67AB 0x0000 = Some line /\ says line ["slc_broadcaster_bits"] (VStr (bs "0x7AB"))).
Proof.
  split; [|split; [|split]]; (eexists; split; [vm_compute; reflexivity|]); repeat split; vm_compute; reflexivity.
Qed.

(* --- C72 --- *)
(* Groups 14A and 14B: the other network's PI code and traffic flags; in 14A also what the variant says *)
Theorem C72_other_network : forall env o now c g c' line v, host_ok env -> host_text env -> o_output_type o = OutJSON -> reachable env o c ->
  received_group (now, g, 0) -> processGroup env o now c g 0 = Ok (c', Some line) ->
  is_type g 14 v -> v <> VC -> blk_is_received (g_b4 g) = true ->
  says_x 4 line ["other_network"; "pi"] (blk_data (g_b4 g)) /\
  says line ["other_network"; "tp"] (VBool (N.testbit (blk_data (g_b2 g)) 4)) /\
  (v = VB -> says line ["other_network"; "ta"] (VBool (N.testbit (blk_data (g_b2 g)) 3))).
Proof. intros env o now c g c' line v H T OJ Re Rg P Ty V. exact (eon_start env o now c g c' line H T OJ Re Rg P v V Ty). Qed.
Print Assumptions C72_other_network.

Theorem C72_variants : forall env o now c g c' line, host_ok env -> host_text env -> o_output_type o = OutJSON -> reachable env o c ->
  received_group (now, g, 0) -> processGroup env o now c g 0 = Ok (c', Some line) ->
  is_type g 14 VA -> blk_is_received (g_b3 g) = true -> blk_is_received (g_b4 g) = true ->
  let b3 := blk_data (g_b3 g) in let variant := blk_data (g_b2 g) mod 2 ^ 4 in let on k := ["other_network"; k] in
  (5 <= variant <= 8 -> tx_freq_ok (TxFM (b3 mod 256)) -> says_n line (on "kilohertz") (freq_kHz (TxFM (b3 mod 256)))) /\
  (5 <= variant <= 8 -> ~ tx_freq_ok (TxFM (b3 mod 256)) -> line_at (on "kilohertz") line = None) /\
  (variant < 5 \/ 9 < variant -> line_at (on "kilohertz") line = None) /\
  if_value (variant =? 12) line (on "has_linkage") (VBool (N.testbit b3 15)) /\
  if_n ((variant =? 12) && N.testbit b3 15 && negb (b3 mod 2 ^ 12 =? 0)) line (on "linkage_set") (b3 mod 2 ^ 12) /\
  if_value (variant =? 13) line (on "prog_type") (VStr (programme_type (o_rbds o) ((b3 / 2 ^ 11) mod 2 ^ 5))) /\
  if_value (variant =? 13) line (on "ta") (VBool (N.testbit b3 0)) /\
  (if variant =? 15 then exists t, says line (on "broadcaster_data") (VStr t) /\ hex_digits 4 t b3
   else line_at (on "broadcaster_data") line = None).
Proof.
  intros env o now c g c' line H T OJ Re Rg P Ty R3 R4 b3 variant on.
  destruct (eon_A env o now c g c' line H T OJ Re Rg P Ty R3 R4) as (E1 & E2). fold b3 variant in E1, E2. unfold if_n in E1.
  split; [|split; [|split; [|exact E2]]]; cbn [tx_freq_ok].
  - intros V [C1 C2]. replace ((5 <=? variant) && (variant <=? 9) && (1 <=? b3 mod 256) && (b3 mod 256 <=? 204)) with true in E1 by lia. exact E1.
  - intros V C. replace ((5 <=? variant) && (variant <=? 9) && (1 <=? b3 mod 256) && (b3 mod 256 <=? 204)) with false in E1 by lia. exact E1.
  - intros V. replace ((5 <=? variant) && (variant <=? 9) && (1 <=? b3 mod 256) && (b3 mod 256 <=? 204)) with false in E1 by lia. exact E1.
Qed.
Print Assumptions C72_variants.

Theorem C72_programme_item : forall env o now c g c' line day hour minute, host_ok env -> host_text env -> o_output_type o = OutJSON -> reachable env o c ->
  received_group (now, g, 0) -> processGroup env o now c g 0 = Ok (c', Some line) ->
  is_type g 14 VA -> blk_is_received (g_b3 g) = true -> blk_is_received (g_b4 g) = true ->
  blk_data (g_b2 g) mod 2 ^ 4 = 14 -> blk_data (g_b3 g) = pin_of day hour minute -> 1 <= day <= 31 -> hour <= 23 -> minute <= 59 ->
  says_n line ["other_network"; "prog_item_number"] (pin_of day hour minute) /\ says_n line ["other_network"; "prog_item_started"; "day"] day /\
  says line ["other_network"; "prog_item_started"; "time"] (VStr (time_of_day hour minute)).
Proof. intros env o now c g c' line day hour minute H T OJ Re Rg P. exact (eon_pin env o now c g c' line H T OJ Re Rg P day hour minute). Qed.
Print Assumptions C72_programme_item.

Example C72_case :
  (exists line, line_after 0xE415 0x3D10 0x6203 = Some line /\ says line ["other_network"; "pi"] (VStr (bs "0x6203")) /\
     says line ["other_network"; "tp"] (VBool true) /\ says line ["other_network"; "kilohertz"] (VNum (bs "89100"))) /\
  (exists line, line_after 0xE40C 0x8123 0x6203 = Some line /\ says line ["other_network"; "linkage_set"] (VNum (bs "291")) /\ says line ["other_network"; "tp"] (VBool false)) /\
  (exists line, line_after 0xE41D 0x5001 0x6203 = Some line /\ says line ["other_network"; "prog_type"] (VStr (bs "Pop music")) /\ says line ["other_network"; "ta"] (VBool true)) /\
  (exists line, line_after 0xE40E (pin_of 5 20 15) 0x6203 = Some line /\ says line ["other_network"; "prog_item_started"; "time"] (VStr (bs "20:15"))).
Proof.
  split; [|split; [|split]]; (eexists; split; [vm_compute; reflexivity|]); repeat split; vm_compute; reflexivity.
Qed.

(* Variant 9 maps to a frequency in the long and medium wave bands.  It is shown as one in the FM band. *)
Theorem C72_medium_wave_refuted : exists b3 line, line_after 0xE409 b3 0x6203 = Some line /\ tx_freq_ok (TxLFMF (b3 mod 256)) /\
  says_n line ["other_network"; "kilohertz"] 89100 /\ freq_kHz (TxLFMF (b3 mod 256)) = 531.
Proof.
  exists 0x3D10. eexists. split; [vm_compute; reflexivity|]. split; [vm_compute; split; discriminate|]. split; [|reflexivity].
  exists (bs "89100"). split; vm_compute; reflexivity.
Qed.
Print Assumptions C72_medium_wave_refuted.

(* --- C73 --- *)
(* Groups 3A: the group type, the name of the application if it is one that is decoded, and its message otherwise.  For
   traffic messages the message is decoded. *)
Theorem C73_announcement : forall env o now c g c' line, host_ok env -> host_text env -> o_output_type o = OutJSON -> reachable env o c ->
  received_group (now, g, 0) -> processGroup env o now c g 0 = Ok (c', Some line) ->
  is_type g 3 VA -> blk_is_received (g_b3 g) = true -> blk_is_received (g_b4 g) = true ->
  let b2 := blk_data (g_b2 g) in let b3 := blk_data (g_b3 g) in let a := blk_data (g_b4 g) in
  says line ["open_data_app"; "oda_group"] (VStr (dec_string ((b2 / 2) mod 16) ++ bs (if N.testbit b2 0 then "B" else "A"))) /\
  (forall name, In (a, name) app_names -> says line ["open_data_app"; "app_name"] (VStr (bs name))) /\
  if_n (negb (existsb (fun x => a =? fst x) app_names)) line ["open_data_app"; "message"] b3 /\
  (a = 0xCD46 \/ a = 0xCD47 ->
     let variant := b3 / 2 ^ 14 in let si k := ["tmc"; "system_info"; k] in let ltn := (b3 / 2 ^ 6) mod 2 ^ 6 in
     if_value (variant =? 0) line (si "is_encrypted") (VBool (ltn =? 0)) /\
     if_n ((variant =? 0) && negb (ltn =? 0)) line (si "location_table") ltn /\
     if_value (variant =? 0) line (si "is_on_alt_freqs") (VBool (N.testbit b3 5)) /\
     if_value ((variant =? 0) && negb (b3 mod 16 =? 0)) line (si "scope") (VArr (scope_names b3)) /\
     if_n (variant =? 1) line (si "service_id") ltn /\
     if_n (variant =? 1) line (si "gap") (nth (N.to_nat ((b3 / 2 ^ 12) mod 4)) [3; 5; 8; 11] 0) /\
     if_n ((variant =? 1) && negb (b3 mod 16 =? 0)) line (si "ltcc") (b3 mod 16) /\
     if_n ((variant =? 2) && negb (b3 mod 256 =? 0)) line (si "ltecc") (b3 mod 256)).
Proof. intros env o now c g c' line H T OJ Re Rg P. exact (announced env o now c g c' line H T OJ Re Rg P). Qed.
Print Assumptions C73_announcement.

Example C73_case :
  (exists line, line_after 0x3410 0x0066 0xCD46 = Some line /\ says line ["open_data_app"; "oda_group"] (VStr (bs "8A")) /\
     says line ["open_data_app"; "app_name"] (VStr (bs "RDS-TMC: ALERT-C")) /\ says line ["tmc"; "system_info"; "location_table"] (VNum (bs "1")) /\
     says line ["tmc"; "system_info"; "scope"] (VArr [VStr (bs "national"); VStr (bs "regional")])) /\
  (exists line, line_after 0x3417 0x1234 0x1111 = Some line /\ says line ["open_data_app"; "oda_group"] (VStr (bs "11B")) /\
     says line ["open_data_app"; "message"] (VNum (bs "4660"))).
Proof.
  split; (eexists; split; [vm_compute; reflexivity|]); repeat split; vm_compute; reflexivity.
Qed.

(* --- C74 --- *)
(* A group of type 5 that no application was announced for: the channel, its bytes, and their text *)
Theorem C74_transparent_data : forall env o w0 gs0 gs1 now g c out p v, host_ok env -> host_text env -> o_output_type o = OutJSON ->
  let gs := gs1 ++ [(now, g, 0)] in
  Forall received_group (gs0 ++ gs) -> p <> 0 -> three p (pis gs0) -> Forall (stays p) gs -> carried_pi (now, g, 0) = Some p ->
  is_type g 5 v -> v <> VC -> not_announced (mkGroupType 5 v) (groups_of (gs0 ++ gs)) -> blk_is_received (g_b3 g) = true -> blk_is_received (g_b4 g) = true ->
  run_groups env o (Channel_new o w0) (gs0 ++ gs) = Ok (c, out) ->
  let b3 := blk_data (g_b3 g) in let b4 := blk_data (g_b4 g) in let l := match v with VA => [hi b3; lo b3; hi b4; lo b4] | _ => [hi b4; lo b4] end in
  exists out' line, out = out' ++ [Some line] /\ says_n line ["transparent_data"; "address"] (blk_data (g_b2 g) mod 32) /\
    (exists t, says line ["transparent_data"; "raw"] (VStr t) /\ hex_bytes l t) /\
    says line ["transparent_data"; "as_text"] (VStr (rds_text (up_to_end l))).
Proof. intros env o w0 gs0 gs1 now g c out p v H T OJ. exact (transparent env o H T OJ w0 gs0 gs1 now g c out p v). Qed.
Print Assumptions C74_transparent_data.

(* A group of type 6 that no application was announced for: its contents as numbers *)
Theorem C74_in_house_data : forall env o w0 gs0 gs1 now g c out p v, host_ok env -> host_text env -> o_output_type o = OutJSON ->
  let gs := gs1 ++ [(now, g, 0)] in
  Forall received_group (gs0 ++ gs) -> p <> 0 -> three p (pis gs0) -> Forall (stays p) gs -> carried_pi (now, g, 0) = Some p ->
  is_type g 6 v -> v <> VC -> not_announced (mkGroupType 6 v) (groups_of (gs0 ++ gs)) ->
  run_groups env o (Channel_new o w0) (gs0 ++ gs) = Ok (c, out) ->
  let r3 := blk_is_received (g_b3 g) in let r4 := blk_is_received (g_b4 g) in
  exists out' line, out = out' ++ [Some line] /\
    says_list line ["in_house_data"] (blk_data (g_b2 g) mod 32 ::
      match v with
      | VA => (if r3 then [blk_data (g_b3 g)] else []) ++ (if r3 && r4 then [blk_data (g_b4 g)] else [])
      | _ => if r4 then [blk_data (g_b4 g)] else []
      end).
Proof. intros env o w0 gs0 gs1 now g c out p v H T OJ. exact (in_house env o H T OJ w0 gs0 gs1 now g c out p v). Qed.
Print Assumptions C74_in_house_data.

Example C74_case : let g := rt2 0x5407 0x4869 0x2180 in let h := rt2 0x641F 0x0001 0xABCD in
  Forall received_group (ps_groups ++ at_times 11 [g]) /\ three 0x2204 (pis ps_groups) /\ Forall (stays 0x2204) (at_times 11 [g]) /\
  is_type g 5 VA /\ is_type h 6 VA /\ not_announced (mkGroupType 5 VA) (groups_of (ps_groups ++ at_times 11 [g])) /\
  (exists line, last_line Options_default (ps_groups ++ at_times 11 [g]) = Some line /\ says line ["transparent_data"; "address"] (VNum (bs "7")) /\
     says line ["transparent_data"; "raw"] (VStr (bs "48 69 21 80")) /\ says line ["transparent_data"; "as_text"] (VStr (bs "Hi!" ++ [0xC3; 0xA1]))) /\
  exists line, last_line Options_default (ps_groups ++ at_times 11 [h]) = Some line /\ says line ["in_house_data"] (VArr [VNum (bs "31"); VNum (bs "1"); VNum (bs "43981")]).
Proof.
  split; [repeat constructor; reflexivity|]. split; [exists []; reflexivity|]. split; [repeat constructor; left; reflexivity|]. split; [split; reflexivity|]. split; [split; reflexivity|].
  split; [intros a X; vm_compute in X; exact X|]. split; (eexists; split; [vm_compute; reflexivity|]); repeat split; vm_compute; reflexivity.
Qed.
