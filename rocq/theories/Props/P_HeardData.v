(* C117, continued: data for which no application is announced, from the bits on the air. *)
From Verif.Model Require Import Base Util Float Group BlockSync Options Json Tmc Tables Station Input Channel Dsp Main.
From Verif.Spec Require Import RdsCode RdsStream Reception Inputs Unicode Numerals JsonText Session Identity Quality Texts History Fields Labels Host Program Cases Recording OnAir Recovery Apps Transparent Heard.
From Verif.Proofs Require Import Tac ChannelP EndP LossP BlockSyncT AirP BlockSyncS HeardP.
From Verif.Props Require Import P_Channel P_Recording P_OnAir P_Recovery P_Again P_Labels P_Transparent P_Heard P_HeardMore.

Local Open Scope string_scope.
Local Open Scope N_scope.
Local Open Scope list_scope.

Lemma given_data : forall t x, given t x -> data_segment (snd (fst x), snd x) = data_part t.
Proof.
  intros t [[n g] w] D. cbn [fst snd]. destruct (given_facts t n g w D) as (-> & T & Ty & (_ & _ & R3 & R4) & G2 & G3 & G4).
  unfold data_segment, data_part, tx_type. rewrite T, Ty, G2, G3, G4. cbn [gt_number gt_version N.eqb andb].
  destruct (tx2 t / 4096 =? 5); [|reflexivity]. destruct (N.testbit (tx2 t) 11); reflexivity.
Qed.
Lemma still_not_announced : forall ty l m, not_announced ty m -> (forall x, In x l -> In x m) -> not_announced ty l.
Proof. intros ty l m Na Fi a X. apply (Na a). apply in_flat_map in X. destruct X as (x & X1 & X2). apply in_flat_map. exists x. split; [apply Fi, X1|exact X2]. Qed.

(* The transparent data channel as a whole: ts and tn are anything of the station in which the bytes l come last, in order:
   all 128, or any number of them with an end mark among them (C81). *)
Theorem C117_data_channel : forall env o clock t input p ts tn l d earlier,
  host_ok env -> host_text env -> o_output_type o = OutJSON -> p <> 0 ->
  heard (o_use_fec o) input p (ts ++ [tn]) -> not_announced (mkGroupType 5 VA) (found_in (o_use_fec o) input) ->
  data_part tn <> [] -> flat_map data_part (ts ++ [tn]) = earlier ++ place 0 l ->
  (length l = 128%nat /\ ~ In end_of_text l /\ d = l) \/
  (exists t0 r, l = t0 ++ end_of_text :: r /\ ~ In end_of_text t0 /\ d = t0 ++ [end_of_text]) ->
  shown env o clock t input (fun line => says line ["transparent_data"; "full_text"] (VStr (rds_text d)) /\
    exists x, says line ["transparent_data"; "full_raw"] (VStr x) /\ hex_bytes (map visible d) x).
Proof.
  intros env o clock t input p ts tn l d earlier H HT OJ P0 Hd Na Nn Ev Cm.
  apply (heard_line env o H clock t input p (ts ++ [tn]) _ Hd). intros gs0 gb c out (Rg & T3 & Pi & Gv & Fi) Er.
  rewrite <- (given_parts _ _ _ given_data _ _ Gv) in Ev.
  destruct (given_last ts tn gb Gv) as (gb1 & n & g & -> & _ & Gn). pose proof (given_data _ _ Gn) as Sn. cbn [fst snd] in Sn.
  destruct (C81_data_received_are_shown env o 0 gs0 gb1 n g 0 c out p l d earlier H HT OJ Rg P0 T3 (pi_stays _ _ Pi) (pi_anyway _ _ _ Pi))
    as (out' & line & x & Eo & S1 & S2 & Hx); [rewrite Sn; exact Nn|exact (still_not_announced _ _ _ Na Fi)|exact Ev|exact Cm|exact Er|].
  exists out', line. split; [exact Eo|]. split; [exact S1|]. exists x. split; assumption.
Qed.
Print Assumptions C117_data_channel.

(* A group of type 5 on its own *)
Theorem C117_transparent_data : forall env o clock t input p ts tn b, host_ok env -> host_text env -> o_output_type o = OutJSON -> p <> 0 ->
  heard (o_use_fec o) input p (ts ++ [tn]) -> tx_type tn 5 b = true -> not_announced (tx_group_type tn) (found_in (o_use_fec o) input) ->
  let l := if b then [hi (tx4 tn); lo (tx4 tn)] else [hi (tx3 tn); lo (tx3 tn); hi (tx4 tn); lo (tx4 tn)] in
  shown env o clock t input (fun line => says_n line ["transparent_data"; "address"] (tx2 tn mod 32) /\
    (exists x, says line ["transparent_data"; "raw"] (VStr x) /\ hex_bytes l x) /\
    says line ["transparent_data"; "as_text"] (VStr (rds_text (up_to_end l)))).
Proof.
  intros env o clock t input p ts tn b H HT OJ P0 Hd Ty Na. cbv zeta.
  apply (heard_line env o H clock t input p (ts ++ [tn]) _ Hd). intros gs0 gb c out (Rg & T3 & Pi & Gv & Fi) Er.
  destruct (given_last ts tn gb Gv) as (gb1 & n & g & -> & _ & Gn).
  destruct (given_facts tn n g 0 Gn) as (_ & _ & Tg & (_ & _ & R3 & R4) & G2 & G3 & G4). pose proof (given_is _ _ _ _ _ Gn Ty) as I.
  assert (Pn : carried_pi (n, g, 0) = Some p) by (apply Forall_app in Pi; destruct Pi as [_ Pi]; exact (Forall_inv Pi)).
  rewrite <- G2, <- G3, <- G4. unfold tx_group_type in Na. rewrite <- Tg in Na. destruct I as [I1 I2]. rewrite I2 in Na.
  destruct (C74_transparent_data env o 0 gs0 gb1 n g c out p (if b then VB else VA) H HT OJ Rg P0 T3 (pi_stays _ _ Pi) Pn (conj I1 I2)) as (out' & line & Eo & S);
    [destruct b; discriminate|exact (still_not_announced _ _ _ Na Fi)|exact R3|exact R4|exact Er|].
  exists out', line. split; [exact Eo|]. destruct b; exact S.
Qed.
Print Assumptions C117_transparent_data.

(* Groups of type 6: in-house data, as numbers *)
Theorem C117_in_house_data : forall env o clock t input p ts tn b, host_ok env -> host_text env -> o_output_type o = OutJSON -> p <> 0 ->
  heard (o_use_fec o) input p (ts ++ [tn]) -> tx_type tn 6 b = true -> not_announced (tx_group_type tn) (found_in (o_use_fec o) input) ->
  shown env o clock t input (fun line => says_list line ["in_house_data"] (tx2 tn mod 32 :: if b then [tx4 tn] else [tx3 tn; tx4 tn])).
Proof.
  intros env o clock t input p ts tn b H HT OJ P0 Hd Ty Na.
  apply (heard_line env o H clock t input p (ts ++ [tn]) _ Hd). intros gs0 gb c out (Rg & T3 & Pi & Gv & Fi) Er.
  destruct (given_last ts tn gb Gv) as (gb1 & n & g & -> & _ & Gn).
  destruct (given_facts tn n g 0 Gn) as (_ & _ & Tg & (_ & _ & R3 & R4) & G2 & G3 & G4). pose proof (given_is _ _ _ _ _ Gn Ty) as I.
  assert (Pn : carried_pi (n, g, 0) = Some p) by (apply Forall_app in Pi; destruct Pi as [_ Pi]; exact (Forall_inv Pi)).
  rewrite <- G2, <- G3, <- G4. unfold tx_group_type in Na. rewrite <- Tg in Na. destruct I as [I1 I2]. rewrite I2 in Na.
  destruct (C74_in_house_data env o 0 gs0 gb1 n g c out p (if b then VB else VA) H HT OJ Rg P0 T3 (pi_stays _ _ Pi) Pn (conj I1 I2)) as (out' & line & Eo & S);
    [destruct b; discriminate|exact (still_not_announced _ _ _ Na Fi)|exact Er|].
  exists out', line. split; [exact Eo|]. rewrite R3, R4 in S. destruct b; exact S.
Qed.
Print Assumptions C117_in_house_data.

Lemma no_one : forall ty found, forallb (fun x => negb (GroupType_eqb (fst x) ty)) (flat_map announcement found) = true -> not_announced ty found.
Proof.
  intros ty found E a X. rewrite forallb_forall in E. specialize (E _ X). cbn [fst] in E. destruct ty as [k v].
  unfold GroupType_eqb in E. cbn [gt_number gt_version] in E. rewrite N.eqb_refl in E. destruct v; discriminate E.
Qed.
(* "CALL 42" and an end mark *)
Definition data_start : list TxGroup := [mkTx 0x1234 0x5405 0x5858 0x5858; mkTx 0x1234 0x5400 0x4341 0x4C4C].
Definition data_last : TxGroup := mkTx 0x1234 0x5401 0x2034 0x320D.
Example C117_data_case : heard true (from_air data_start data_last) 0x1234 (data_start ++ [data_last]) /\
  not_announced (mkGroupType 5 VA) (found_in true (from_air data_start data_last)) /\ data_part data_last <> [] /\ tx_type data_last 5 false = true /\
  flat_map data_part (data_start ++ [data_last]) = place 20 (bs "XXXX") ++ place 0 (bs "CALL 42" ++ end_of_text :: []) /\ ~ In end_of_text (bs "CALL 42").
Proof.
  split; [by_air data_start data_last|]. split; [apply no_one; vm_compute; reflexivity|]. split; [discriminate|]. split; [reflexivity|].
  split; [vm_compute; reflexivity|]. vm_compute. intuition discriminate.
Qed.
Definition house_last : TxGroup := mkTx 0x1234 0x641F 0x0001 0xABCD.
Example C117_in_house_case : heard true (from_air [] house_last) 0x1234 ([] ++ [house_last]) /\ tx_type house_last 6 false = true /\
  not_announced (tx_group_type house_last) (found_in true (from_air [] house_last)).
Proof. split; [by_air (@nil TxGroup) house_last|]. split; [reflexivity|]. apply no_one; vm_compute; reflexivity. Qed.
