(* C119: groups written as lines of hexadecimal text. *)
From Verif.Model Require Import Base Util Float Group BlockSync Options Json Tmc Tables Station Input Channel Dsp Main.
From Verif.Spec Require Import RdsStream Inputs Unicode JsonText Session Identity Quality Frequencies Texts History Fields Host Program Cases Recording OnAir Apps Heard HexText.
From Verif.Proofs Require Import Tac HostP AirP HeardP HexTextP.
From Verif.Props Require Import P_Channel P_Text P_Parts P_Freq P_AgainText.

Local Open Scope string_scope.
Local Open Scope N_scope.
Local Open Scope list_scope.

(* --- C119 --- *)
(* The lines of the groups ts, which follow any other text and at least three groups of the same station (Spec/HexText.v),
   are answered with one line each, in the same order. *)
Theorem C119_one_line_each : forall env o clock input p ts, host_ok env -> host_text env -> o_output_type o = OutJSON -> p <> 0 ->
  in_hex_text input p ts ->
  exists items lines more, processHexInput env o clock input = Ok (EXIT_SUCCESS, items ++ map (Line 0) lines ++ more) /\
    Forall2 (tells (o_rbds o) p) ts lines.
Proof. exact hex_text_told. Qed.
Print Assumptions C119_one_line_each.

(* With hex output, the same blocks are written again *)
Theorem C119_in_hex : forall env o clock input p ts, host_ok env -> o_output_type o = OutHex -> o_timestamp o = false ->
  in_hex_text input p ts ->
  exists items lines more, processHexInput env o clock input = Ok (EXIT_SUCCESS, items ++ map (Line 0) lines ++ more) /\
    Forall2 hex_line ts lines.
Proof. exact hex_text_in_hex. Qed.
Print Assumptions C119_in_hex.

(* The station name, of which the parts in ts and tn are received in order at last *)
Theorem C119_name : forall env o clock input p ts tn earlier n0 n1 n2 n3 n4 n5 n6 n7,
  host_ok env -> host_text env -> o_output_type o = OutJSON -> p <> 0 -> in_hex_text input p (ts ++ [tn]) -> name_part tn <> [] ->
  flat_map name_part (ts ++ [tn]) = earlier ++ [(0, n0, n1); (1, n2, n3); (2, n4, n5); (3, n6, n7)] ->
  ~ In end_of_text [n0; n1; n2; n3; n4; n5; n6; n7] ->
  exists items line more, processHexInput env o clock input = Ok (EXIT_SUCCESS, items ++ [Line 0 line] ++ more) /\
    says line ["ps"] (VStr (rds_text [n0; n1; n2; n3; n4; n5; n6; n7])).
Proof.
  intros env o clock input p ts tn earlier n0 n1 n2 n3 n4 n5 n6 n7 H HT OJ P0 Hx Nn Ev Ne.
  apply (hex_text_line env o clock input p (ts ++ [tn]) _ H Hx). intros gs0 gb c out (Rg & T3 & Pi & Gv & Al) Er.
  assert (Gn : forall t x, given t x -> ps_segment (snd (fst x), snd x) = name_part t) by (intros t x [e [D W]]; exact (delivered_name _ _ _ D W)).
  rewrite <- (given_parts _ _ _ Gn _ _ Gv) in Ev. destruct (given_last ts tn gb Gv) as (gb1 & n & g & -> & _ & Gl).
  pose proof (Gn _ _ Gl) as Sn. cbn [fst snd] in Sn.
  eapply (C23_name_received_in_order_is_shown env o 0 gs0 gb1 n g c out p earlier n0 n1 n2 n3 n4 n5 n6 n7); try eassumption; [exact (pi_stays _ _ Pi)|exact (pi_anyway _ _ _ Pi)|rewrite Sn; exact Nn].
Qed.
Print Assumptions C119_name.

(* The programme type name, as in C111 *)
Theorem C119_type_name : forall env o clock input p ts tn f l,
  host_ok env -> host_text env -> o_output_type o = OutJSON -> p <> 0 -> in_hex_text input p (ts ++ [tn]) -> type_name_part tn <> [] ->
  uniform f VA (flat_map type_name_part (ts ++ [tn])) -> complete_text 8 (part_writes (flat_map type_name_part (ts ++ [tn]))) l ->
  exists items line more, processHexInput env o clock input = Ok (EXIT_SUCCESS, items ++ [Line 0 line] ++ more) /\
    says line ["pty_name"] (VStr (rds_text l)).
Proof.
  intros env o clock input p ts tn f l H HT OJ P0 Hx Nn Un Cm.
  apply (hex_text_line env o clock input p (ts ++ [tn]) _ H Hx). intros gs0 gb c out (Rg & T3 & Pi & Gv & Al) Er.
  rewrite <- (given_parts _ _ _ given_type_name _ _ Gv) in Un, Cm.
  destruct (given_last ts tn gb Gv) as (gb1 & n & g & -> & _ & Gn). pose proof (given_type_name _ _ Gn) as Sn. cbn [fst snd] in Sn.
  apply (C111_type_name env o 0 gs0 gb1 n g 0 c out p f l H HT OJ Rg P0 T3 (pi_stays _ _ Pi) (pi_anyway _ _ _ Pi)); [rewrite Sn; exact Nn|exact Un|exact Cm|exact Er].
Qed.
Print Assumptions C119_type_name.

(* RadioText, as in C111; no group of the input announces RadioText Plus *)
Theorem C119_text : forall env o clock input p ts tn f v l,
  host_ok env -> host_text env -> o_output_type o = OutJSON -> p <> 0 -> in_hex_text input p (ts ++ [tn]) ->
  (forall g, In g (read_hex_input o clock input) -> ~ In 0x4BD7 (map snd (announcement (g, 0)))) -> text_part tn <> [] ->
  uniform f v (flat_map text_part (ts ++ [tn])) -> complete_text (rt_size v) (part_writes (flat_map text_part (ts ++ [tn]))) l ->
  exists items line s more, processHexInput env o clock input = Ok (EXIT_SUCCESS, items ++ [Line 0 line] ++ more) /\
    says line ["radiotext"] (VStr s) /\ trimmed (rds_text l) s.
Proof.
  intros env o clock input p ts tn f v l H HT OJ P0 Hx Np Nn Un Cm.
  enough (X : exists items line more, processHexInput env o clock input = Ok (EXIT_SUCCESS, items ++ [Line 0 line] ++ more) /\
    exists s, says line ["radiotext"] (VStr s) /\ trimmed (rds_text l) s).
  { destruct X as (items & line & more & E & s & Sy & Tr). exists items, line, s, more. split; [exact E|split; [exact Sy|exact Tr]]. }
  apply (hex_text_line env o clock input p (ts ++ [tn]) _ H Hx). intros gs0 gb c out (Rg & T3 & Pi & Gv & Al) Er.
  assert (Gn : forall t x, given t x -> rt_segment (snd (fst x), snd x) = text_part t) by (intros t x [e D]; exact (AgainTextP.delivered_text (t, e) x D)).
  rewrite <- (given_parts _ _ _ Gn _ _ Gv) in Un, Cm. destruct (given_last ts tn gb Gv) as (gb1 & n & g & -> & _ & Gl).
  pose proof (Gn _ _ Gl) as Sn. cbn [fst snd] in Sn.
  destruct (C111_radiotext env o 0 gs0 gb1 n g c out p f v l H HT OJ Rg P0 T3 (pi_stays _ _ Pi) (pi_anyway _ _ _ Pi)) as (out' & line & s & E & Sy & Tr);
    [rewrite Sn; exact Nn|exact Un|exact Cm| |exact Er|exists out', line; split; [exact E|exists s; split; assumption]].
  intros g1 _ _ X. apply in_flat_map in X. destruct X as ([g2 w2] & X1 & X2). unfold groups_of in X1. apply in_map_iff in X1. destruct X1 as (x & Ex & X1).
  rewrite Forall_forall in Al. specialize (Al x X1). cbn beta in Al. rewrite Ex in Al. apply in_map_iff in Al. destruct Al as (g3 & E3 & Al). assert (g3 = g2) as -> by congruence.
  apply (Np g2 Al). assert (W0 : w2 = 0).
  { unfold announcement, carries in X2. destruct (N.eqb_spec w2 0) as [W|W]; [exact W|]. cbn [andb] in X2. destruct X2. }
  subst w2. apply in_map_iff. eexists. split; [|exact X2]. reflexivity.
Qed.
Print Assumptions C119_text.

(* A list of alternative frequencies by method A, as in C32 *)
Theorem C119_frequencies : forall env o clock input p ts tn earlier evs c1 c2 fs,
  host_ok env -> host_text env -> o_output_type o = OutJSON -> p <> 0 -> in_hex_text input p (ts ++ [tn]) -> freq_codes tn <> [] ->
  flat_map freq_codes (ts ++ [tn]) = earlier ++ evs ++ [AfCodes c1 c2] ->
  af_transmission fs (codes_of (evs ++ [AfCodes c1 c2])) -> c1 <> filler \/ c2 <> filler -> NoDup (map freq_kHz fs) ->
  exists items line more, processHexInput env o clock input = Ok (EXIT_SUCCESS, items ++ [Line 0 line] ++ more) /\
    shows_numbers line ["alt_frequencies_a"] (map freq_kHz fs) /\ lacks line "alt_frequencies_b".
Proof.
  intros env o clock input p ts tn earlier evs c1 c2 fs H HT OJ P0 Hx Nn Ev Tr Nf Nd.
  apply (hex_text_line env o clock input p (ts ++ [tn]) _ H Hx). intros gs0 gb c out (Rg & T3 & Pi & Gv & Al) Er.
  rewrite <- (given_parts _ _ _ given_freq _ _ Gv) in Ev.
  destruct (given_last ts tn gb Gv) as (gb1 & n & g & -> & _ & Gn). pose proof (given_freq _ _ Gn) as Sn. cbn [fst snd] in Sn.
  apply (C32_method_a env o 0 gs0 gb1 n g 0 c out p earlier evs c1 c2 fs H HT OJ Rg P0 T3 (pi_stays _ _ Pi) (pi_anyway _ _ _ Pi)); [rewrite Sn; exact Nn|exact Ev|exact Tr|exact Nf|exact Nd|exact Er].
Qed.
Print Assumptions C119_frequencies.

(* A file with a comment, a group of another station, three groups of this one and its name "RADIO 1 ", in various ways of writing *)
Definition hex_before : bytes := bs "# recorded on Monday" ++ [10] ++ bs "1111 0408 E0E0 4142" ++ [10] ++ [10].
Definition hex_name : list TxGroup := [mkTx 0x2204 0x0408 0xE0E0 0x5241; mkTx 0x2204 0x0409 0xE0E0 0x4449; mkTx 0x2204 0x040A 0xE0E0 0x4F20].
Definition hex_name_last : TxGroup := mkTx 0x2204 0x040B 0xE0E0 0x3120.
Definition hex_lines : list bytes :=
  repeat (bs "2204 2400 4142 4344") 3 ++ [bs "2204 0408 E0E0 5241"; bs "22040409e0e04449 2026-11-16"; bs "2204 040A E0E0 4F20"; bs " 2204  040b E0 E0 3120 x"].
Example C119_case : let input := hex_before ++ text_file hex_lines ++ bs "2204 24" in let ts := hex_name ++ [hex_name_last] in
  in_hex_text input 0x2204 ts /\ name_part hex_name_last <> [] /\
  flat_map name_part ts = [] ++ [(0, 0x52, 0x41); (1, 0x44, 0x49); (2, 0x4F, 0x20); (3, 0x31, 0x20)] /\
  exists items l1 l2 l3 l4, processHexInput plain_host Options_default (fun _ => 0%Z) input = Ok (EXIT_SUCCESS, items ++ map (Line 0) [l1; l2; l3; l4]) /\
    says l4 ["ps"] (VStr (bs "RADIO 1 ")).
Proof.
  intros input ts. split; [|split; [discriminate|split; [vm_compute; reflexivity|]]].
  - exists hex_before, (repeat (mkTx 0x2204 0x2400 0x4142 0x4344) 3), hex_lines, (bs "2204 24"). split; [reflexivity|].
    split; [right; exists (bs "# recorded on Monday" ++ [10] ++ bs "1111 0408 E0E0 4142" ++ [10]); reflexivity|].
    split; [|split; [repeat constructor|cbn; lia]].
    unfold hex_lines. cbn [repeat app hex_name]. repeat constructor;
      (do 17 eexists; split; [vm_compute; reflexivity|]; repeat split; try (vm_compute; reflexivity); [discriminate|vm_compute; intuition discriminate]).
  - eexists [Line 0 _], _, _, _, _. split; [vm_compute; reflexivity|]. vm_compute. reflexivity.
Qed.

(* "Hello" and an end mark in two parts, with a group of the name between; the second part comes twice *)
Definition hex_hello : list bytes := repeat (bs "1234 2400 4142 4344") 3 ++ [bs "1234 2410 4865 6C6C"; bs "1234 0408 E0CD 5261"; bs "1234 2411 6f0d 2020"; bs "12342411 6F0D2020 "].
Example C119_text_case : let input := bs "2204 3410 0000 4142" ++ [10] ++ text_file hex_hello ++ bs "end" in let ts := map fst hello1 ++ [fst hello2] in
  in_hex_text input 0x1234 ts /\ (forall g, In g (read_hex_input Options_default (fun _ => 0%Z) input) -> ~ In 0x4BD7 (map snd (announcement (g, 0)))) /\
  text_part (fst hello2) <> [] /\ uniform true VA (flat_map text_part ts) /\ complete_text 64 (part_writes (flat_map text_part ts)) hello_text.
Proof.
  intros input ts. split; [|split; [|split; [discriminate|split; [repeat constructor|apply hello_complete; reflexivity]]]].
  - exists (bs "2204 3410 0000 4142" ++ [10]), (repeat (mkTx 0x1234 0x2400 0x4142 0x4344) 3), hex_hello, (bs "end"). split; [reflexivity|].
    split; [right; exists (bs "2204 3410 0000 4142"); reflexivity|].
    split; [|split; [repeat constructor|cbn; lia]].
    unfold hex_hello. cbn [repeat app hello1 hello2 map fst]. repeat constructor;
      (do 17 eexists; split; [vm_compute; reflexivity|]; repeat split; try (vm_compute; reflexivity); [discriminate|vm_compute; intuition discriminate]).
  - intros g I. assert (F : forallb (fun g => negb (existsb (fun a => snd a =? 0x4BD7) (announcement (g, 0)))) (read_hex_input Options_default (fun _ => 0%Z) input) = true) by (vm_compute; reflexivity).
    intros X. rewrite forallb_forall in F. specialize (F g I). apply negb_true_iff in F. rewrite <- not_true_iff_false in F. apply F. apply existsb_exists.
    apply in_map_iff in X. destruct X as (a & Ea & Ia). exists a. split; [exact Ia|]. apply N.eqb_eq. exact Ea.
Qed.
