(* Fields of printed lines that repeat bits of the group: header fields, call sign, programme item. *)
From Verif.Model Require Import Base Util Group Options Tables Json Tmc Station Channel.
From Verif.Spec Require Import Numerals JsonText Calendar Session Identity Quality Fields.
From Verif.Proofs Require Import Tac Numerals FreqP JsonP Schema TextP CleanP UpdateP SessionP LineP ChannelP HistoryP LinesP ShowP GetP TraceP.

Local Open Scope string_scope.
Local Open Scope N_scope.
Local Open Scope list_scope.

(* ---- the North American call sign ---- *)
Lemma land_mask : forall a k s, N.land a (N.shiftl (N.ones k) s) = ((a / 2 ^ s) mod 2 ^ k) * 2 ^ s.
Proof.
  intros a k s. rewrite <- N.shiftl_mul_pow2, <- N.land_ones, <- N.shiftr_div_pow2. apply N.bits_inj. intros i.
  rewrite N.land_spec. destruct (N.leb_spec s i) as [L|L].
  - rewrite !N.shiftl_spec_high' by exact L. rewrite N.land_spec, N.shiftr_spec', N.sub_add by exact L. reflexivity.
  - rewrite !N.shiftl_spec_low by exact L. apply andb_false_r.
Qed.
Lemma mask_FFF0 : forall a, N.land a 0xFFF0 = ((a / 16) mod 4096) * 16. Proof. intros a. exact (land_mask a 12 4). Qed.
Lemma mask_000F : forall a, N.land a 0x000F = a mod 16. Proof. intros a. exact (N.land_ones a 4). Qed.
Lemma mask_FF00 : forall a, N.land a 0xFF00 = ((a / 256) mod 256) * 256. Proof. intros a. exact (land_mask a 8 8). Qed.
Lemma mask_F000 : forall a, N.land a 0xF000 = ((a / 4096) mod 16) * 4096. Proof. intros a. exact (land_mask a 4 12). Qed.
Lemma mask_0F00 : forall a, N.land a 0x0F00 = ((a / 256) mod 16) * 256. Proof. intros a. exact (land_mask a 4 8). Qed.
Lemma mask_00FF : forall a, N.land a 0x00FF = a mod 256. Proof. intros a. exact (N.land_ones a 8). Qed.
Lemma high_bit : forall b i, b < 256 -> 8 <= i -> N.testbit b i = false.
Proof.
  intros b i H L. destruct (N.eqb_spec b 0) as [->|]; [apply N.bits_0|]. apply N.bits_above_log2. apply N.log2_lt_pow2; [lia|].
  apply N.lt_le_trans with (2 ^ 8); [exact H|apply N.pow_le_mono_r; [discriminate|exact L]].
Qed.
Lemma lor_parts : forall a b, b < 256 -> N.lor (a * 256) b = a * 256 + b.
Proof.
  intros a b H. change 256 with (2 ^ 8). rewrite <- N.shiftl_mul_pow2. symmetry.
  rewrite N.add_nocarry_lxor; apply N.bits_inj; intros i; [rewrite N.lxor_spec, N.lor_spec|rewrite N.land_spec, N.bits_0].
  - destruct (N.ltb_spec i 8) as [L|L]; [rewrite N.shiftl_spec_low by exact L; destruct (N.testbit b i); reflexivity|].
    rewrite (high_bit b i H L). destruct (N.testbit _ i); reflexivity.
  - destruct (N.ltb_spec i 8) as [L|L]; [rewrite N.shiftl_spec_low by exact L; reflexivity|].
    rewrite (high_bit b i H L). apply andb_false_r.
Qed.
Lemma undo_spec : forall x, 0x1000 <= x -> x <= 0x994F -> undo_zero_nybbles (without_zero_nybbles x) = x.
Proof.
  intros x A B. unfold undo_zero_nybbles, without_zero_nybbles, u16. rewrite !mask_FFF0, !mask_000F, !mask_FF00, !mask_F000, !mask_0F00, !mask_00FF, !N.shiftl_mul_pow2.
  change (2 ^ 12) with 4096. change (2 ^ 8) with 256. change (2 ^ 4) with 16.
  destruct (N.eqb_spec (x mod 4096) 0) as [E|E].
  - replace ((0xAFA0 + x / 4096) / 16 mod 4096 * 16 =? 0xAFA0) with true by lia. replace ((0xAFA0 + x / 4096) mod 16 <? 10) with true by lia. cbn [andb]. lia.
  - destruct (N.eqb_spec (x mod 256) 0) as [F|F].
    + replace ((0xAF00 + x / 256) / 16 mod 4096 * 16 =? 0xAFA0) with false by lia. cbn [andb].
      replace ((0xAF00 + x / 256) / 256 mod 256 * 256 =? 0xAF00) with true by lia. lia.
    + destruct (N.eqb_spec (x / 256 mod 16) 0) as [G|G].
      * set (p := x / 4096). set (r := x mod 256). assert (X : x = p * 4096 + r /\ 1 <= p /\ p <= 9 /\ r < 256) by (unfold p, r; lia). clearbody p r. clear E F G. destruct X as (-> & P1 & P2 & R).
        set (y := 0xA000 + p * 256 + r).
        assert (Y1 : y / 256 = 160 + p) by (symmetry; apply (N.div_unique y 256 (160 + p) r); [exact R|unfold y; lia]).
        assert (Y2 : y mod 256 = r) by (symmetry; apply (N.mod_unique y 256 (160 + p) r); [exact R|unfold y; lia]).
        assert (Y3 : y / 4096 = 10) by (symmetry; apply (N.div_unique y 4096 10 (p * 256 + r)); [lia|unfold y; lia]).
        assert (Y4 : y / 16 < 0xAFA) by (apply N.div_lt_upper_bound; [lia|unfold y; lia]). rewrite Y1, Y2, Y3. clearbody y. clear Y1 Y2 Y3.
        rewrite (N.mod_small (y / 16)) by lia. replace (y / 16 * 16 =? 0xAFA0) with false by lia. cbn [andb].
        rewrite (N.mod_small (160 + p) 256) by lia. replace ((160 + p) * 256 =? 0xAF00) with false by lia. change (10 mod 16 * 4096 =? 0xA000) with true. cbv iota.
        assert (M : (160 + p) mod 16 = p) by (symmetry; apply (N.mod_unique (160 + p) 16 10 p); lia). rewrite M, (N.mod_small (p * 256 * 16)) by lia.
        replace (p * 256 * 16) with (p * 16 * 256) by lia. rewrite lor_parts by exact R. lia.
      * replace (x / 16 mod 4096 * 16 =? 0xAFA0) with false by lia. cbn [andb].
        replace (x / 256 mod 256 * 256 =? 0xAF00) with false by lia. replace (x / 4096 mod 16 * 4096 =? 0xA000) with false by lia. reflexivity.
Qed.
Lemma callsign_of_code : forall w a b c, a < 26 -> b < 26 -> c < 26 ->
  getCallsignFromPI (callsign_pi w a b c) = callsign_text w a b c.
Proof.
  intros w a b c A B C. unfold getCallsignFromPI, callsign_pi. rewrite undo_spec by (destruct w; lia). cbv zeta.
  set (x := (if w then 21672 else 4096) + (a * 676 + b * 26 + c)).
  assert (X : 0x1000 <= x /\ x <= 0x994F /\ (w = false -> x <= 0x54A7) /\ (w = true -> 0x54A8 <= x)) by (unfold x; destruct w; repeat split; intros; try discriminate; lia).
  destruct X as (X1 & X2 & X3 & X4). replace ((0x9950 <=? x) && (x <=? 0x9EFF)) with false by lia.
  rewrite N.shiftr_div_pow2. change (2 ^ 12) with 4096.
  replace (x / 4096 =? 0xB) with false by lia. replace (x / 4096 =? 0xD) with false by lia. replace (x / 4096 =? 0xE) with false by lia. cbn [orb].
  replace ((0x1000 <=? x) && (x <=? 0x994F)) with true by lia.
  assert (Y : x - (if x <=? 0x54A7 then 0x1000 else 0x54A8) = a * 676 + b * 26 + c /\ (if x <=? 0x54A7 then 75 else 87) = if w then 87 else 75).
  { destruct w; [specialize (X4 eq_refl); replace (x <=? 0x54A7) with false by lia|specialize (X3 eq_refl); replace (x <=? 0x54A7) with true by lia]; (split; [unfold x; lia|reflexivity]). }
  destruct Y as [-> ->]. unfold callsign_text. change (26 * 26) with 676. clear - A B C. f_equal.
  assert (E1 : (a * 676 + b * 26 + c) / 676 mod 26 = a) by lia. assert (E2 : (a * 676 + b * 26 + c) / 26 mod 26 = b) by lia. assert (E3 : (a * 676 + b * 26 + c) mod 26 = c) by lia.
  rewrite E1, E2, E3. reflexivity.
Qed.

(* ---- the header of printed lines ---- *)
Lemma run_which : forall env o gs c c' out, o_output_type o = OutJSON -> run_groups env o c gs = Ok (c', out) ->
  st_which_channel (ch_station c) = ch_which_channel c ->
  ch_which_channel c' = ch_which_channel c /\ st_which_channel (ch_station c') = ch_which_channel c.
Proof.
  intros env o. induction gs as [|[[now g] w] gs IH]; intros c c' out OJ R E; cbn [run_groups] in R; [injection R as <- _; split; [reflexivity|exact E]|].
  destruct (processGroup env o now c g w) as [[c1 l1]| |] eqn:P; cbn [bind] in R; try discriminate.
  destruct (run_groups env o c1 gs) as [[c2 o2]| |] eqn:R2; cbn [bind] in R; try discriminate. injection R as <- _.
  destruct (process_station _ _ _ _ _ _ _ _ OJ P) as ((_ & _ & Iw & _) & _ & W & _).
  destruct (had_station (tuned c (prepared o now c g w)) (prepared o now c g w)) as (_ & _ & Hw). rewrite Hw in Iw.
  assert (Tw : st_which_channel (tuned c (prepared o now c g w)) = ch_which_channel c) by (destruct (tuned_cases c (prepared o now c g w)) as [->|[p ->]]; [exact E|reflexivity]).
  rewrite Tw in Iw. destruct (IH c1 c2 o2 OJ R2) as [A B]; [congruence|]. split; congruence.
Qed.
Lemma printed_header : forall env o w0 gs now g w c out line, host_ok env -> o_output_type o = OutJSON ->
  Forall received_group (gs ++ [(now, g, w)]) ->
  run_groups env o (Channel_new o w0) (gs ++ [(now, g, w)]) = Ok (c, out ++ [Some line]) ->
  exists st g', station_of c = Some (st_pi st) /\ st_which_channel st = w0 /\ is_C g' = negb (main (now, g, w)) /\
    (forall b, g_block g' b = g_block g b) /\ g_type g' = (if w =? 0 then g_type g else mkGroupType (gt_number (g_type g)) VC) /\
    g_has_type g' = (if w =? 0 then g_has_type g else true) /\ g_data_stream g' = w /\
    (only_error line \/ forall k, in_header k = true ->
      line_at [k] line = option_map (value_of (env_float env)) (obj_find k (header env o st g'))).
Proof.
  intros env o w0 gs now g w c out line H OJ F R.
  destruct (run_snoc _ _ _ _ _ _ _ _ _ R) as (c1 & out1 & line1 & E1 & E2 & Eo). apply app_inj_tail in Eo. destruct Eo as [_ <-].
  assert (F' := F). apply Forall_app in F'. destruct F' as [F1 F2]. inversion F2 as [|? ? Fg _]; subst.
  destruct (run_ok _ _ _ _ _ _ H (channel_new_ok o w0) F1 E1) as [Hc _].
  destruct (process_header _ _ _ _ _ _ _ _ H OJ Hc (proj1 Fg) E2) as [S L].
  destruct (process_station _ _ _ _ _ _ _ _ OJ E2) as (Id & _). set (g' := prepared o now c1 g w) in *.
  assert (Hp : st_has_pi (tuned c1 g') = true).
  { unfold silent in S. destruct (st_has_pi (tuned c1 g')); [reflexivity|discriminate]. }
  assert (St : station_of c = Some (st_pi (tuned c1 g'))).
  { unfold station_of. apply same_station in Id. rewrite Id. destruct (had_station (tuned c1 g') g') as (-> & -> & _). rewrite Hp. reflexivity. }
  exists (tuned c1 g'), g'. split; [exact St|]. split; [|split; [apply prepared_C|split; [intros b; apply prepared_block|split; [apply prepared_type|split; [apply prepared_has_type|split; [|exact L]]]]]].
  - destruct (run_which _ _ _ _ _ _ OJ E1 eq_refl) as [A B]. destruct (tuned_cases c1 g') as [->|[p ->]]; [exact B|exact A].
  - reflexivity.
Qed.

Lemma call_none : forall o st k, k <> "callsign" -> k <> "callsign_uncertain" -> obj_find k (call_member o st) = None.
Proof.
  intros o st k A B. unfold call_member. destruct (o_rbds o); [|reflexivity]. destruct (getCallsignFromPI (st_pi st)); [reflexivity|].
  cbn [obj_find]. destruct (N.land (st_pi st) 0xF000 =? 0x1000); [destruct (String.eqb_spec k "callsign_uncertain")|destruct (String.eqb_spec k "callsign")]; [contradiction|reflexivity|contradiction|reflexivity].
Qed.
Lemma basics_none : forall o g k, k <> "group" -> k <> "tp" -> k <> "prog_type" -> obj_find k (basics o g) = None.
Proof.
  intros o g k A B C. assert (X : forall b w, obj_find k (basics_of o g b w) = None).
  { intros b w. unfold basics_of. destruct w; cbn [app obj_find]; repeat (match goal with |- context [String.eqb k ?x] => destruct (String.eqb_spec k x); [contradiction|] end); reflexivity. }
  unfold basics. destruct (is_C g); [cbn [obj_find]; destruct (String.eqb_spec k "group"); [contradiction|reflexivity]|]. destruct (g_has g BLOCK2); [apply X|]. destruct (_ && _ && _); [apply X|reflexivity].
Qed.
Ltac in_head := intros; unfold header; rewrite !obj_find_app;
  match goal with |- context [is_C ?g] => destruct (is_C g) end;
  rewrite ?call_none by discriminate; rewrite ?basics_none by discriminate;
  match goal with |- context [o_streams ?o] => destruct (o_streams o), (o_timestamp o), (1 <? o_num_channels o), (o_show_raw o) end;
  match goal with |- context [g_has_bler ?g] => destruct (g_has_bler g) end; reflexivity.
Lemma header_stream : forall env o st g, obj_find "stream" (header env o st g) = if o_streams o then Some (JN (g_data_stream g)) else None.
Proof. in_head. Qed.
Lemma header_channel : forall env o st g, obj_find "channel" (header env o st g) = if 1 <? o_num_channels o then Some (JN (st_which_channel st)) else None.
Proof. in_head. Qed.
Lemma header_raw : forall env o st g, obj_find "raw_data" (header env o st g) = if o_show_raw o then Some (JStr (g_printHex g)) else None.
Proof. in_head. Qed.
Lemma header_basics : forall env o st g k, k = "group" \/ k = "tp" \/ k = "prog_type" -> obj_find k (header env o st g) = obj_find k (basics o g).
Proof. intros env o st g k [->|[->| ->]]; in_head. Qed.
Lemma header_call : forall env o st g k, k = "callsign" \/ k = "callsign_uncertain" -> is_C g = false -> obj_find k (header env o st g) = obj_find k (call_member o st).
Proof.
  intros env o st g k K C. unfold header. rewrite C, !obj_find_app. rewrite (basics_none o g k) by (destruct K; subst; discriminate).
  assert (X : forall a b, (if o_streams o then [("stream", a)] else []) = b -> obj_find k b = None) by (intros a b <-; destruct K; subst; destruct (o_streams o); reflexivity).
  rewrite (X _ _ eq_refl). replace (obj_find k [("pi", JStr (getPrefixedHexString 4 (st_pi st)))]) with (@None json) by (destruct K; subst; reflexivity).
  destruct (obj_find k (call_member o st)); [reflexivity|]. destruct K; subst; repeat match goal with |- context [if ?b then _ else _] => destruct b end; reflexivity.
Qed.

Lemma callsign_line : forall env o w0 gs now g w c out line p lw la lb lc, host_ok env -> o_output_type o = OutJSON -> o_rbds o = true ->
  Forall received_group (gs ++ [(now, g, w)]) -> main (now, g, w) = true ->
  run_groups env o (Channel_new o w0) (gs ++ [(now, g, w)]) = Ok (c, out ++ [Some line]) ->
  station_of c = Some p -> p = callsign_pi lw la lb lc -> la < 26 -> lb < 26 -> lc < 26 ->
  only_error line \/ says line [if p / 4096 =? 1 then "callsign_uncertain" else "callsign"] (VStr (callsign_text lw la lb lc)).
Proof.
  intros env o w0 gs now g w c out line p lw la lb lc H OJ Rb F M R La Ep A B C.
  destruct (printed_header _ _ _ _ _ _ _ _ _ _ H OJ F R) as (st & g' & Ls & _ & IC & _ & _ & _ & _ & L). destruct L as [L|L]; [left; exact L|right].
  assert (Es : st_pi st = p) by (rewrite Ls in La; injection La as La; exact La). unfold says.
  assert (P16 : p < 65536) by (apply (latest_16 p _ F (station_latest _ _ _ _ _ _ _ OJ R La))).
  rewrite L by (destruct (p / 4096 =? 1); reflexivity). rewrite header_call; [|destruct (_ =? 1); [right|left]; reflexivity|rewrite IC, M; reflexivity].
  unfold call_member. rewrite Rb, Es, Ep, callsign_of_code by assumption. unfold callsign_text at 1. rewrite <- Ep, mask_F000.
  replace (p / 4096 mod 16 * 4096 =? 0x1000) with (p / 4096 =? 1) by (destruct (N.eqb_spec (p / 4096) 1) as [E|E]; [rewrite E; reflexivity|lia]).
  cbn [obj_find]. rewrite String.eqb_refl. reflexivity.
Qed.

Lemma raw_hex : forall b, blk_data b < 2 ^ 16 -> raw_block b (blk_hex b).
Proof.
  intros b H. unfold raw_block, blk_hex. destruct (blk_is_received b); [|reflexivity]. apply (getHexString_ok 4 (blk_data b) H). lia.
Qed.
Lemma printHex_raw : forall g, blk_data (g_b1 g) < 2 ^ 16 -> blk_data (g_b2 g) < 2 ^ 16 -> blk_data (g_b3 g) < 2 ^ 16 -> blk_data (g_b4 g) < 2 ^ 16 ->
  raw_text g (g_printHex g).
Proof. intros g A B C D. do 4 eexists. repeat (split; [apply raw_hex; eassumption|]). reflexivity. Qed.
Lemma pty_table : forall rbds code, code < 32 -> (if rbds : bool then getPTYNameStringRBDS code else getPTYNameString code) = programme_type rbds code.
Proof.
  intros rbds code H. assert (E : forallb (fun c => bytes_eqb (getPTYNameStringRBDS c) (programme_type true c) && bytes_eqb (getPTYNameString c) (programme_type false c)) (nseq 0 32) = true) by (vm_compute; reflexivity).
  rewrite forallb_forall in E. assert (I : In code (nseq 0 32)) by (apply nseq_In; lia). specialize (E code I). apply andb_prop in E. destruct E as [E1 E2].
  destruct rbds; apply bytes_eqb_eq; assumption.
Qed.
Lemma JN_says : forall env line k n, line_at [k] line = Some (value_of (env_float env) (JN n)) -> says_number line k n.
Proof.
  intros env line k n E. exists (dec_string n). split; [|apply dec_string_value]. unfold says. rewrite E. unfold JN. cbn [value_of]. rewrite dec_string_Z_of_N. reflexivity.
Qed.
Lemma header_line : forall env o w0 gs now g w c out line, host_ok env -> o_output_type o = OutJSON ->
  Forall received_group (gs ++ [(now, g, w)]) ->
  run_groups env o (Channel_new o w0) (gs ++ [(now, g, w)]) = Ok (c, out ++ [Some line]) ->
  only_error line \/
  ((o_streams o = true -> says_number line "stream" w) /\
   (1 < o_num_channels o -> says_number line "channel" w0) /\
   (o_show_raw o = true -> exists t, says line ["raw_data"] (VStr t) /\ raw_text g t) /\
   (main (now, g, w) = false -> says line ["group"] (VStr (bs "C"))) /\
   (main (now, g, w) = true -> blk_is_received (g_b2 g) = true ->
      let b2 := blk_data (g_b2 g) in
      says line ["tp"] (VBool (N.testbit b2 10)) /\ says line ["prog_type"] (VStr (programme_type (o_rbds o) ((b2 / 2 ^ 5) mod 2 ^ 5))) /\
      forall n v, is_type g n v -> says line ["group"] (VStr (dec_string n ++ bs (match v with VA => "A" | _ => "B" end))))).
Proof.
  intros env o w0 gs now g w c out line H OJ F R.
  destruct (printed_header _ _ _ _ _ _ _ _ _ _ H OJ F R) as (st & g' & Ls & W & IC & Bl & Ty & HT & Ds & L). destruct L as [L|L]; [left; exact L|right].
  apply Forall_app in F. destruct F as [_ F]. pose proof (Forall_inv F) as Fg. destruct Fg as (_ & D1 & D2 & D3 & D4).
  split; [|split; [|split; [|split]]].
  - intros S. apply (JN_says env). rewrite L by reflexivity. rewrite header_stream, S, Ds. reflexivity.
  - intros S. apply (JN_says env). rewrite L by reflexivity. rewrite header_channel. replace (1 <? o_num_channels o) with true by lia. rewrite W. reflexivity.
  - intros S. exists (g_printHex g). split; [|apply printHex_raw; assumption]. unfold says. rewrite L by reflexivity. rewrite header_raw, S. cbn [option_map value_of].
    pose proof (Bl BLOCK1) as B1. pose proof (Bl BLOCK2) as B2. pose proof (Bl BLOCK3) as B3. pose proof (Bl BLOCK4) as B4. cbn [g_block] in B1, B2, B3, B4. unfold g_printHex. rewrite B1, B2, B3, B4. reflexivity.
  - intros M. unfold says. rewrite L by reflexivity. rewrite header_basics by (left; reflexivity). unfold basics. rewrite IC, M. reflexivity.
  - intros M R2 b2. unfold says. rewrite !L by reflexivity. rewrite !header_basics by auto. unfold basics. rewrite IC, M. cbn [negb].
    assert (Hw : w =? 0 = true) by (cbn [main] in M; destruct (w =? 0); [reflexivity|discriminate]). rewrite Hw in *.
    assert (H2 : g_has g' BLOCK2 = true) by (unfold g_has; rewrite Bl; exact R2). rewrite H2. unfold basics_of. rewrite !obj_find_app.
    assert (G2 : g_get g' BLOCK2 = b2) by (unfold g_get; rewrite Bl; reflexivity). rewrite G2.
    split; [|split].
    + replace (obj_find "tp" (if g_has_type g' then [("group", JStr (GroupType_str (g_type g')))] else [])) with (@None json) by (destruct (g_has_type g'); reflexivity).
      cbn [obj_find option_map value_of]. cbn [String.eqb Ascii.eqb Bool.eqb]. rewrite getBool_testbit. reflexivity.
    + replace (obj_find "prog_type" (if g_has_type g' then [("group", JStr (GroupType_str (g_type g')))] else [])) with (@None json) by (destruct (g_has_type g'); reflexivity).
      cbn [obj_find option_map value_of]. cbn [String.eqb Ascii.eqb Bool.eqb]. unfold pty_string. rewrite getBits_arith, pty_table; [reflexivity|apply N.mod_lt; discriminate].
    + intros n v [T1 T2]. rewrite HT, T1. cbn [obj_find]. cbn [String.eqb Ascii.eqb Bool.eqb option_map value_of]. rewrite Ty, T2. unfold GroupType_str. cbn [gt_version gt_number].
      assert (v <> VC) by (intros ->; cbn [main] in M; rewrite T2, Hw in M; discriminate). destruct v; [reflexivity|reflexivity|contradiction].
Qed.

(* ---- programme item numbers ---- *)
Lemma hours_minutes : forall h m, h <= 99 -> m <= 99 -> getHoursMinutesString (Z.of_N h) (Z.of_N m) = time_of_day h m.
Proof.
  intros h m Hh Hm. unfold getHoursMinutesString, time_of_day. rewrite <- !fmt_two by lia. unfold fmt_0d. unfold dec_string_Z. replace (Z.of_N h <? 0)%Z with false by lia. replace (Z.of_N m <? 0)%Z with false by lia. reflexivity.
Qed.
Lemma pin_fields : forall day hour minute, day <= 31 -> hour <= 31 -> minute <= 63 ->
  getBits 5 (pin_of day hour minute) 11 = day /\ getBits 5 (pin_of day hour minute) 6 = hour /\ getBits 6 (pin_of day hour minute) 0 = minute.
Proof.
  intros day hour minute A B C. rewrite !getBits_arith. unfold pin_of. change (2 ^ 11) with 2048. change (2 ^ 5) with 32. change (2 ^ 6) with 64. change (2 ^ 0) with 1. lia.
Qed.
Lemma raw_1 : forall st g v, g_type g = mkGroupType 1 v -> v <> VC -> raw_group st g = false.
Proof.
  intros st g v T V. unfold raw_group. rewrite T. cbn [gt_number gt_version]. change (1 =? 15) with false. change (1 =? 1) with true. cbn [orb].
  destruct (find_type _ _); [|apply andb_false_r]. destruct (raw_app n), (Version_eqb v VC), (1 =? 0); reflexivity.
Qed.
Lemma pin_rest : forall st g j j', decodeType1 st g j = Ok j' -> g_has g BLOCK3 && g_has g BLOCK4 = true ->
  exists j1, (if g_get g BLOCK4 =? 0 then Ok j
              else '(ok, j) <- decodePIN (g_get g BLOCK4) [] j ;; if ok : bool then Ok j else debug (bs "invalid PIN") j) = Ok j1 /\
    forall k q, existsb (String.eqb k) ["has_linkage"; "country"; "tmc_id"; "language"; "slc_broadcaster_bits"; "ews"; "debug"] = false ->
      jget (k :: q) j' = jget (k :: q) j1.
Proof.
  intros st g j j' D Hb. unfold decodeType1 in D. rewrite Hb in D. cbn [negb] in D. cbv zeta in D. unbind D. exists y. split; [reflexivity|].
  intros k q K. cbn [existsb] in K.
  assert (Ap : forall x, In x ["has_linkage"; "country"; "tmc_id"; "language"; "slc_broadcaster_bits"; "ews"; "debug"] -> forall p r, apart (x :: p) (k :: r) = true).
  { intros x Ix p r. cbn [apart]. destruct (String.eqb_spec x k) as [->|]; [|reflexivity]. exfalso. rewrite !orb_false_iff, !String.eqb_neq in K.
    cbn [In] in Ix. intuition congruence. }
  assert (Jo : forall x v a b, In x ["has_linkage"; "country"; "tmc_id"; "language"; "slc_broadcaster_bits"; "ews"; "debug"] -> jset [x] v a = Ok b -> jget (k :: q) b = jget (k :: q) a).
  { intros x v a b Ix U. eapply jset_other; [exact U|apply Ap; exact Ix]. }
  assert (Dp : forall t a b, debug t a = Ok b -> jget (k :: q) b = jget (k :: q) a).
  { intros t a b U. eapply jpush_other; [exact U|apply Ap; cbn [In]; tauto]. }
  destruct (Version_eqb (gt_version (g_type g)) VA); [|injection D as <-; reflexivity]. unbind D.
  transitivity (jget (k :: q) y0); [|eapply Jo; [|exact B0]; cbn [In]; tauto].
  destruct (getBits 3 (g_get g BLOCK3) 12) as [|[[[?|?|]|[?|?|]|]|[[?|?|]|[?|?|]|]|]];
    try (eapply Dp; exact D); try (eapply Jo; [|exact D]; cbn [In]; tauto); try (injection D as <-; reflexivity).
  destruct (getUint8 (g_get g BLOCK3) 0 =? 0); [injection D as <-; reflexivity|]. unbind D. eapply Jo; [|exact D]; cbn [In]; tauto.
Qed.
Lemma type1_decoded : forall env o now c g v c' line, host_ok env -> host_text env -> o_output_type o = OutJSON -> reachable env o c -> g_has_bler g = false ->
  is_type g 1 v -> v <> VC -> processGroup env o now c g 0 = Ok (c', Some line) ->
  exists st m j, decodeType1 st (prepared o now c g 0) (JObj m) = Ok j /\
    (forall k, in_header k = false -> obj_find k m = None) /\
    forall p, line_at p line = option_map (value_of (env_float env)) (jget p j).
Proof.
  intros env o now c g v c' line H T OJ Re Hb Ty V P.
  pose proof (host_text_txt env T) as E. pose proof (reachable_fine env o c H E Re) as Fc.
  destruct (prepared_is o now c g 1 v Ty) as [T1 T2].
  destruct (process_shows _ _ _ _ _ _ _ _ H E OJ Fc Hb P) as (j & D & L); [left; apply (raw_1 _ _ v); assumption|].
  unfold decoded in D. rewrite T1 in D. unfold decodeByType in D. rewrite T2 in D. cbn [gt_number gt_version] in D.
  replace (Version_eqb v VC) with false in D by (destruct v; [reflexivity|reflexivity|contradiction]). change (1 =? 0) with false in D. change (1 =? 1) with true in D. cbv zeta iota in D.
  destruct (decodeType1 _ _ _) as [j1| |] eqn:D1; cbn [bind] in D; try discriminate. injection D as _ <-.
  do 3 eexists. split; [exact D1|]. split; [|exact L]. intros k K. apply header_no; [|exact K].
  destruct (prepared_bler o now c g 0 (proj1 Fc) Hb) as [_ X]. exact X.
Qed.
Lemma pin_line : forall env o now c g v c' line day hour minute, host_ok env -> host_text env -> o_output_type o = OutJSON -> reachable env o c -> g_has_bler g = false ->
  is_type g 1 v -> v <> VC -> processGroup env o now c g 0 = Ok (c', Some line) ->
  blk_is_received (g_b3 g) = true -> blk_is_received (g_b4 g) = true -> blk_data (g_b4 g) = pin_of day hour minute ->
  1 <= day <= 31 -> hour <= 23 -> minute <= 59 ->
  says_number line "prog_item_number" (pin_of day hour minute) /\ (exists t, says line ["prog_item_started"; "day"] (VNum t) /\ numeral 10 t = Some day) /\
  says line ["prog_item_started"; "time"] (VStr (time_of_day hour minute)).
Proof.
  intros env o now c g v c' line day hour minute H T OJ Re Hb Ty V P R3 R4 E4 Hd Hh Hm.
  destruct (type1_decoded _ _ _ _ _ _ _ _ H T OJ Re Hb Ty V P) as (st & m & j & D & _ & L).
  destruct (pin_rest _ _ _ _ D) as (j1 & D1 & Rest); [unfold g_has; rewrite !prepared_block; cbn [g_block]; rewrite R3, R4; reflexivity|].
  rewrite prepared_get in D1. unfold g_get in D1. cbn [g_block] in D1. rewrite E4 in D1.
  destruct (pin_fields day hour minute) as (F1 & F2 & F3); [lia..|].
  replace (pin_of day hour minute =? 0) with false in D1 by (unfold pin_of; lia). unfold decodePIN in D1. rewrite F1, F2, F3 in D1. cbv zeta in D1.
  replace ((1 <=? day) && (hour <=? 24) && (minute <=? 59)) with true in D1 by lia. cbn [app] in D1.
  destruct (jset ["prog_item_number"] _ _) as [ja| |] eqn:Ja; cbn [bind] in D1; try discriminate D1.
  destruct (jset ["prog_item_started"; "day"] _ _) as [jb| |] eqn:Jb; cbn [bind] in D1; try discriminate D1.
  destruct (jset ["prog_item_started"; "time"] _ _) as [jc| |] eqn:Jc; cbn [bind] in D1; try discriminate D1. injection D1 as <-.
  split; [|split].
  - apply (JN_says env). rewrite L, Rest by reflexivity. erewrite jset_other; [|exact Jc|reflexivity]. erewrite jset_other; [|exact Jb|reflexivity]. erewrite jset_same; [|exact Ja]. reflexivity.
  - exists (dec_string day). split; [|apply dec_string_value]. unfold says. rewrite L, Rest by reflexivity. erewrite jset_other; [|exact Jc|reflexivity]. erewrite jset_same; [|exact Jb].
    unfold JN. cbn [option_map value_of]. rewrite dec_string_Z_of_N. reflexivity.
  - unfold says. rewrite L, Rest by reflexivity. erewrite jset_same; [|exact Jc]. cbn [option_map value_of]. rewrite hours_minutes by lia. reflexivity.
Qed.
Lemma pin_invalid : forall env o now c g v c' line day hour minute, host_ok env -> host_text env -> o_output_type o = OutJSON -> reachable env o c -> g_has_bler g = false ->
  is_type g 1 v -> v <> VC -> processGroup env o now c g 0 = Ok (c', Some line) ->
  blk_is_received (g_b3 g) = true -> blk_is_received (g_b4 g) = true -> blk_data (g_b4 g) = pin_of day hour minute ->
  day <= 31 -> hour <= 31 -> minute <= 63 -> day = 0 \/ 24 < hour \/ 59 < minute ->
  lacks line "prog_item_number" /\ lacks line "prog_item_started".
Proof.
  intros env o now c g v c' line day hour minute H T OJ Re Hb Ty V P R3 R4 E4 Hd Hh Hm Bad.
  destruct (type1_decoded _ _ _ _ _ _ _ _ H T OJ Re Hb Ty V P) as (st & m & j & D & N0 & L).
  destruct (pin_rest _ _ _ _ D) as (j1 & D1 & Rest); [unfold g_has; rewrite !prepared_block; cbn [g_block]; rewrite R3, R4; reflexivity|].
  rewrite prepared_get in D1. unfold g_get in D1. cbn [g_block] in D1. rewrite E4 in D1.
  destruct (pin_fields day hour minute) as (F1 & F2 & F3); [lia..|]. unfold decodePIN in D1. rewrite F1, F2, F3 in D1. cbv zeta in D1.
  assert (X : forall k, in_header k = false -> k <> "debug" -> jget [k] j1 = None).
  { intros k Hk Kd. destruct (pin_of day hour minute =? 0) eqn:Z0; [injection D1 as <-; cbn [jget]; rewrite N0 by exact Hk; reflexivity|].
    replace ((1 <=? day) && (hour <=? 24) && (minute <=? 59)) with false in D1 by lia. cbn [bind] in D1.
    erewrite jpush_other; [|exact D1|cbn [apart]; destruct (String.eqb_spec "debug" k); [congruence|reflexivity]]. cbn [jget]. rewrite N0 by exact Hk. reflexivity. }
  unfold lacks. rewrite !L, !Rest, !X by (reflexivity || discriminate). split; reflexivity.
Qed.
