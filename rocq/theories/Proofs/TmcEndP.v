(* Traffic messages, from the groups to the line. *)
From Coq Require Import SpecFloat.
From Verif.Model Require Import Util Group Options Tables Json Freq RdsString Tmc Station Channel.
From Verif.Spec Require Import Numerals Unicode JsonText Session Identity History Quality Texts Apps Fields Frequencies Traffic.
From Verif.Proofs Require Import Tac Numerals FreqP JsonP Schema StationP TextP CleanP UpdateP SessionP LineP FrameP ChannelP LinesP HistoryP ShowP TraceP KeysP GetP FieldsP StringP PsP RtP EndP LpsP AppsP AfP TmcP TmcMsgP TmcLineP TmcHistP.

Local Open Scope string_scope.
Local Open Scope N_scope.
Local Open Scope list_scope.

(* ---- encryption of locations ---- *)
Lemma or_sum : forall a b, N.land a b = 0 -> N.lor a b = a + b.
Proof. intros a b H. rewrite N.add_nocarry_lxor by exact H. symmetry. apply N.lxor_lor, H. Qed.
Lemma rotate_back : forall n v, n < 16 -> v < 65536 -> rotl16 (rotated_right n v) n = v.
Proof.
  intros n v Hn Hv. unfold rotated_right, rotl16.
  assert (X : In n (nseq 0 16)) by (apply nseq_In; lia). 
  assert (Hp : v / 2 ^ n < 2 ^ (16 - n) /\ v mod 2 ^ n < 2 ^ n).
  { split; [|apply N.mod_lt, N.pow_nonzero; discriminate]. apply N.div_lt_upper_bound; [apply N.pow_nonzero; discriminate|]. rewrite <- N.pow_add_r. replace (n + (16 - n)) with 16 by lia. exact Hv. }
  pose proof (N.div_mod v (2 ^ n) ltac:(apply N.pow_nonzero; discriminate)) as Dm. revert Hp Dm. generalize (v / 2 ^ n) (v mod 2 ^ n). intros a b [Ha Hb] Dm.
  change (In n [0; 1; 2; 3; 4; 5; 6; 7; 8; 9; 10; 11; 12; 13; 14; 15]) in X.
  assert (Ls : N.land n 15 = n) by (repeat (destruct X as [<-|X]; [reflexivity|]); destruct X).
  rewrite Ls.
  assert (Rs : N.land (u32_sub 0 n) 15 = (16 - n) mod 16) by (repeat (destruct X as [<-|X]; [reflexivity|]); destruct X).
  rewrite Rs. rewrite N.shiftl_mul_pow2, N.shiftr_div_pow2. unfold u16.
  assert (P16 : 2 ^ n * 2 ^ (16 - n) = 65536) by (rewrite <- N.pow_add_r; replace (n + (16 - n)) with 16 by lia; reflexivity).
  destruct (N.eq_dec n 0) as [->|N0].
  - change (2 ^ 0) with 1 in *. change ((16 - 0) mod 16) with 0. change (2 ^ 0) with 1. assert (b = 0) as -> by lia. rewrite N.mul_0_l, N.add_0_r, N.mul_1_r, N.div_1_r. replace a with v by lia. rewrite N.mod_small by exact Hv. apply N.lor_diag.
  - replace ((16 - n) mod 16) with (16 - n) by (rewrite N.mod_small; lia).
    assert (E1 : ((a + b * 2 ^ (16 - n)) * 2 ^ n) mod 65536 = a * 2 ^ n).
    { replace ((a + b * 2 ^ (16 - n)) * 2 ^ n) with (a * 2 ^ n + b * 65536) by (rewrite <- P16; lia). rewrite N.mod_add by discriminate. apply N.mod_small. rewrite <- P16, N.mul_comm. apply N.mul_lt_mono_pos_l; [|exact Ha]. apply N.neq_0_lt_0, N.pow_nonzero. discriminate. }
    assert (E2 : (a + b * 2 ^ (16 - n)) / 2 ^ (16 - n) = b).
    { rewrite N.div_add by (apply N.pow_nonzero; discriminate). rewrite N.div_small by exact Ha. reflexivity. }
    change (2 ^ 16) with 65536 in *. rewrite E1, E2. rewrite N.mod_small.
    2: { eapply N.lt_trans; [exact Hb|]. change 65536 with (2 ^ 16). apply N.pow_lt_mono_r; lia. }
    rewrite or_sum; [rewrite Dm; lia|]. apply N.bits_inj. intros k. rewrite N.land_spec, N.bits_0.
    destruct (N.lt_ge_cases k n) as [Hk|Hk].
    + rewrite N.mul_pow2_bits_low by exact Hk. reflexivity.
    + assert (N.testbit b k = false) as ->; [|apply andb_false_r]. destruct (N.eq_dec b 0) as [->|Nb]; [apply N.bits_0|]. apply N.bits_above_log2. apply N.lt_le_trans with n; [|exact Hk]. apply N.log2_lt_pow2; [lia|exact Hb].
Qed.
Lemma decrypted : forall n pattern v, n < 16 -> v < 65536 -> rotl16 (N.lxor (encrypted n pattern v) pattern) n = v.
Proof. intros n pattern v Hn Hv. unfold encrypted. rewrite N.lxor_assoc, N.lxor_nilpotent, N.lxor_0_r. apply rotate_back; assumption. Qed.

(* ---- places ---- *)
Lemma walk_along : forall db b n c, let next p := if b : bool then pt_pos_off p else pt_neg_off p in
  along (db_points db) next c (walk db b n c) /\ (length (walk db b n c) <= n)%nat /\
  (length (walk db b n c) = n \/ db_points db (next_after next c (walk db b n c)) = None).
Proof.
  intros db b n. induction n as [|n IH]; intros c next; cbn [walk]; [split; [constructor|split; [reflexivity|left; reflexivity]]|].
  destruct (db_points db c) as [p|] eqn:E; [|split; [constructor|split; [apply Nat.le_0_l|right; exact E]]].
  specialize (IH (if b then pt_pos_off p else pt_neg_off p)). cbv zeta in IH. destruct IH as (I1 & I2 & I3). cbn [length].
  split; [constructor; [exact E|exact I1]|]. split; [lia|]. destruct I3 as [I3|I3]; [left; lia|right; exact I3].
Qed.

(* ---- what is shown of a finished message ---- *)
Definition with_key (d : TmcData) (s : TMCService) (m : Message) : res Message :=
  if t_is_encrypted s then match td_key d (t_encid s) with Some key => m_decrypt m key | None => Ok m end else Ok m.
Lemma with_key_same : forall d s m m', with_key d s m = Ok m' -> same_content m m' /\ m_was_encrypted m' = m_was_encrypted m.
Proof.
  intros d s m m' E. unfold with_key in E. assert (R : forall x, Ok x = Ok m' -> x = m -> same_content m m' /\ m_was_encrypted m' = m_was_encrypted m).
  { intros x X ->. injection X as <-. unfold same_content. repeat split. }
  destruct (t_is_encrypted s); [|exact (R _ E eq_refl)]. destruct (td_key d (t_encid s)); [|exact (R _ E eq_refl)].
  unfold m_decrypt in E. destruct (negb _); [exact (R _ E eq_refl)|]. destruct (_ || _); [discriminate|]. injection E as <-. unfold same_content. repeat split.
Qed.
Lemma finish_parts : forall d s m j j', finish_message d s m j = Ok j' -> m_is_complete m = true -> m_events m <> [] ->
  exists m' j0, with_key d s m = Ok m' /\ jset ["tmc"; "message"] (m_json d m') j = Ok j0 /\
    decodeLocation (td_locdb d (t_ltn s)) (t_ltn s) (negb (m_is_encrypted m')) (m_location m') (match m_direction m' with DirNegative => true | DirPositive => false end) (m_extent m') j0 = Ok j'.
Proof.
  intros d s m j j' F C E. unfold finish_message in F. unbind F. fold (with_key d s m) in B. destruct (with_key_same _ _ _ _ B) as [Sc _].
  destruct Sc as (_ & _ & Ev & _ & _ & _ & Cp & _). assert (Je : jempty (m_json d y) = false).
  { unfold m_json. rewrite Cp, C, Ev. destruct (m_events m); [contradiction|]. reflexivity. }
  rewrite Je in F. unbind F. exists y, y0. split; [exact B|]. split; [exact B0|exact F].
Qed.
Lemma finish_none : forall d s m j j', finish_message d s m j = Ok j' -> m_is_complete m = false \/ m_events m = [] -> j' = j.
Proof.
  intros d s m j j' F C. unfold finish_message in F. unbind F. fold (with_key d s m) in B. destruct (with_key_same _ _ _ _ B) as [Sc _].
  destruct Sc as (_ & _ & Ev & _ & _ & _ & Cp & _). assert (Je : jempty (m_json d y) = true).
  { unfold m_json. rewrite Cp, Ev. destruct C as [-> | ->]; [reflexivity|]. rewrite orb_true_r. reflexivity. }
  rewrite Je in F. congruence.
Qed.
(* members about the place are not part of the message *)
Lemma mem_located : forall d m k, located k = true -> jget [k] (m_json d m) = None.
Proof.
  intros d m k Hk. unfold m_json. destruct (negb (m_is_complete m) || _); [reflexivity|].
  unfold located in Hk. cbn [existsb] in Hk. rewrite !orb_true_iff in Hk. cbn [jget]. rewrite ?find_app.
  repeat (destruct Hk as [Hk|Hk]; [apply String.eqb_eq in Hk; subst k; cbn [obj_find String.eqb Ascii.eqb Bool.eqb];
    repeat match goal with |- context [obj_find ?k (match ?x with _ => _ end)] =>
      replace (obj_find k (match x with _ => _ end)) with (@None json) by (destruct x; reflexivity) end; reflexivity|]). discriminate Hk.
Qed.
Lemma unlocated : forall db ltn lcd ng ext j j', decodeLocation db ltn false lcd ng ext j = Ok j' -> j' = j.
Proof. intros. unfold decodeLocation in H. cbn [negb] in H. rewrite orb_true_r in H. congruence. Qed.
(* the members about the place *)
Definition place_member (db : LocationDatabase) (pt : Point) (points : list Point) (k : string) : option json :=
  let first := unless_empty (pt_name1 pt) in
  let lst := unless_empty (pt_name1 (last points pt)) in
  let several := (2 <=? length points)%nat in
  let road := db_roads db (pt_roa_lcd pt) in
  if String.eqb k "coordinates" then Some (JArr (map coordinate points))
  else if String.eqb k "span_from" then option_map JStr (if several then if_known lst (fun _ => first) else None)
  else if String.eqb k "span_to" then option_map JStr (if several then if_known first (fun _ => lst) else None)
  else if String.eqb k "road_number" then option_map JStr (if_known road (fun r => unless_empty (road_number r)))
  else if String.eqb k "road_name" then option_map JStr (if_known road (fun r => either (unless_empty (road_name r)) (unless_empty (pt_road_name pt))))
  else None.
Definition sets (kv : string * json) (f : string -> option json) : string -> option json := fun k => if String.eqb k (fst kv) then Some (snd kv) else f k.
Lemma set_members : forall k v j j' f, jset (msg k) v j = Ok j' -> (forall k, located k = true -> jget (msg k) j = f k) ->
  forall k', located k' = true -> jget (msg k') j' = sets (k, v) f k'.
Proof.
  intros k v j j' f E H k' Hk. unfold sets. cbn [fst snd]. destruct (String.eqb_spec k' k) as [->|N0]; [exact (jset_same _ _ _ _ E)|].
  rewrite <- (H k' Hk). apply (jset_other _ _ _ _ _ E). unfold msg. cbn [apart String.eqb Ascii.eqb Bool.eqb andb orb negb].
  destruct (String.eqb_spec k k') as [X|X]; [congruence|reflexivity].
Qed.
Lemma members_of : forall db ltn lcd ng ext j j', decodeLocation db ltn true lcd ng ext j = Ok j' -> db_ltn db = ltn -> ltn <> 0 ->
  (forall k, located k = true -> jget (msg k) j = None) ->
  forall k, located k = true -> jget (msg k) j' = match db_points db lcd with None => None
    | Some pt => place_member db pt (walk db (negb ng || (ext =? 0)) (S (N.to_nat ext)) lcd) k end.
Proof.
  intros db ltn lcd ng ext j j' D El N0 Jn. unfold decodeLocation in D. rewrite El, N.eqb_refl in D. replace (ltn =? 0) with false in D by lia. cbn [negb orb] in D.
  destruct (db_points db lcd) as [pt|] eqn:Ep; [|intros k Hk; injection D as <-; exact (Jn k Hk)]. cbv zeta in D.
  assert (W0 : exists r, walk db (negb ng || (ext =? 0)) (S (N.to_nat ext)) lcd = pt :: r) by (cbn [walk]; rewrite Ep; eexists; reflexivity).
  set (points := walk _ _ _ _) in *. destruct W0 as (r & W0). clearbody points. subst points.
  unbind D. pose proof (set_members _ _ _ _ (fun _ => None) B Jn) as J1. clear B.
  unbind D. rename B into B2.
  assert (J2 : forall k, located k = true -> jget (msg k) y0 = (match r with
     | [] => sets ("coordinates", JArr (map coordinate (pt :: r))) (fun _ => None)
     | _ => match pt_name1 pt, pt_name1 (last r pt) with
        | _ :: _, _ :: _ => sets ("span_to", JStr (pt_name1 (last r pt))) (sets ("span_from", JStr (pt_name1 pt)) (sets ("coordinates", JArr (map coordinate (pt :: r))) (fun _ => None)))
        | _, _ => sets ("coordinates", JArr (map coordinate (pt :: r))) (fun _ => None)
        end end) k).
  { destruct r as [|p1 r]; [injection B2 as <-; exact J1|]. change (last (p1 :: r) pt) with (List.last (p1 :: r) pt).
    destruct (pt_name1 pt) eqn:E1; [injection B2 as <-; exact J1|]. destruct (pt_name1 (List.last (p1 :: r) pt)) eqn:E2; [injection B2 as <-; exact J1|].
    unbind B2. pose proof (set_members _ _ _ _ _ B J1) as J2. exact (set_members _ _ _ _ _ B2 J2). }
  clear J1 B2. set (f2 := match r with [] => _ | _ => _ end) in J2.
  assert (F2 : forall k, f2 k = place_member (mkLocdb 0 (fun _ => None) (fun _ => None)) pt (pt :: r) k).
  { intros k. unfold f2, place_member. cbn [db_roads if_known option_map].
    destruct r as [|p1 r]; [cbn; unfold sets; cbn [fst snd]; destruct (String.eqb k "coordinates"), (String.eqb k "span_from"), (String.eqb k "span_to"), (String.eqb k "road_number"), (String.eqb k "road_name"); reflexivity|].
    change (last (pt :: p1 :: r) pt) with (last (p1 :: r) pt). change ((2 <=? length (pt :: p1 :: r))%nat) with true.
    destruct (pt_name1 pt), (pt_name1 (last (p1 :: r) pt)); unfold sets; cbn [fst snd unless_empty if_known option_map];
      (destruct (String.eqb_spec k "coordinates") as [->|]; [reflexivity|]); (destruct (String.eqb_spec k "span_from") as [->|]; [reflexivity|]);
      (destruct (String.eqb_spec k "span_to") as [->|]; [reflexivity|]);
      destruct (String.eqb k "road_number"), (String.eqb k "road_name"); reflexivity. }
  clearbody f2. intros k Hk.
  assert (P : forall db' k, place_member db' pt (pt :: r) k = if String.eqb k "road_number" then option_map JStr (if_known (db_roads db' (pt_roa_lcd pt)) (fun r => unless_empty (road_number r)))
     else if String.eqb k "road_name" then option_map JStr (if_known (db_roads db' (pt_roa_lcd pt)) (fun r => either (unless_empty (road_name r)) (unless_empty (pt_road_name pt)))) else f2 k).
  { intros db' k0. rewrite F2. unfold place_member. cbv zeta.
    destruct (String.eqb_spec k0 "road_number") as [->|]; [reflexivity|]. destruct (String.eqb_spec k0 "road_name") as [->|]; reflexivity. }
  assert (Q1 : f2 "road_number" = None) by (rewrite F2; reflexivity). assert (Q2 : f2 "road_name" = None) by (rewrite F2; reflexivity).
  rewrite P. clear P F2. destruct (db_roads db (pt_roa_lcd pt)) as [road|]; cbn [if_known option_map].
  2: { injection D as <-. rewrite (J2 k Hk). destruct (String.eqb_spec k "road_number") as [->|]; [exact Q1|]. destruct (String.eqb_spec k "road_name") as [->|]; [exact Q2|reflexivity]. }
  unbind D. rename B into B3.
  assert (J3 : forall k, located k = true -> jget (msg k) y1 = if String.eqb k "road_number" then option_map JStr (unless_empty (road_number road)) else f2 k).
  { intros k0 Hk0. destruct (road_number road) as [|x q].
    - injection B3 as <-. cbn [unless_empty option_map]. rewrite (J2 k0 Hk0). destruct (String.eqb_spec k0 "road_number") as [->|]; [exact Q1|reflexivity].
    - exact (set_members _ _ _ _ _ B3 J2 k0 Hk0). }
  clear B3 J2. destruct (String.eqb_spec k "road_name") as [->|Nk].
  - cbn [String.eqb Ascii.eqb Bool.eqb]. destruct (road_name road) as [|x q]; [destruct (pt_road_name pt) as [|x q]|]; cbn [unless_empty either option_map].
    + injection D as <-. rewrite (J3 _ Hk). exact Q2.
    + exact (jset_same _ _ _ _ D).
    + exact (jset_same _ _ _ _ D).
  - rewrite <- (J3 k Hk). destruct (road_name road) as [|x q]; [destruct (pt_road_name pt) as [|x q]|]; [injection D as <-; reflexivity| |];
      rewrite (set_members _ _ _ _ _ D (fun k _ => eq_refl) k Hk); unfold sets; cbn [fst snd]; (destruct (String.eqb_spec k "road_name"); [contradiction|reflexivity]).
Qed.
Lemma value_coordinate : forall env p, value_of (env_float env) (coordinate p) = shown_point (env_float env) p.
Proof. reflexivity. Qed.

(* ---- user groups ---- *)
Lemma user_single : forall d u s x y z j s' j', receiveUserGroup d u s x y z j = Ok (s', j') -> t_is_initialized s = true -> (t_is_encrypted s = true -> t_has_encid s = true) ->
  8 <= x < 16 -> finish_message d s (m_set_head d (Message_new (t_is_encrypted s)) y z) j = Ok j'.
Proof.
  intros d u s x y z j s' j' R I K Hx. unfold receiveUserGroup in R. rewrite I in R. cbn [negb] in R.
  assert (E5 : getBits 5 x 0 = x) by (rewrite getBits_arith; change (2 ^ 0) with 1; rewrite N.div_1_r; apply N.mod_small; change (2 ^ 5) with 32; lia).
  assert (X : In x (nseq 8 8)) by (apply nseq_In; lia).
  assert (E4 : getBool x 4 = false /\ getBool x 3 = true) by (clear - X; cbv in X; repeat (destruct X as [<-|X]; [split; reflexivity|]); destruct X). destruct E4 as [E4 E3].
  rewrite E5, E4, E3 in R. replace (x =? 0) with false in R by lia. replace (t_is_encrypted s && negb (t_has_encid s)) with false in R.
  2: { destruct (t_is_encrypted s); [rewrite K by reflexivity|]; reflexivity. }
  unbind R. unfold pushSingle in B. congruence.
Qed.
Lemma user_multi : forall d u s x y z j s' j', receiveUserGroup d u s x y z j = Ok (s', j') -> t_is_initialized s = true -> (t_is_encrypted s = true -> t_has_encid s = true) ->
  1 <= x < 8 -> let m := pushMulti d (if x =? m_continuity_index (t_message s) then t_message s else Message_new (t_is_encrypted s)) x y z in
  if m_is_complete m then finish_message d s m j = Ok j' else j' = j.
Proof.
  intros d u s x y z j s' j' R I K Hx m. unfold receiveUserGroup in R. rewrite I in R. cbn [negb] in R.
  assert (E5 : getBits 5 x 0 = x) by (rewrite getBits_arith; change (2 ^ 0) with 1; rewrite N.div_1_r; apply N.mod_small; change (2 ^ 5) with 32; lia).
  assert (X : In x (nseq 1 7)) by (apply nseq_In; lia).
  assert (E4 : getBool x 4 = false /\ getBool x 3 = false) by (clear - X; cbv in X; repeat (destruct X as [<-|X]; [split; reflexivity|]); destruct X). destruct E4 as [E4 E3].
  rewrite E5, E4, E3, ci_of in R by lia. replace (x =? 0) with false in R by lia. replace (t_is_encrypted s && negb (t_has_encid s)) with false in R.
  2: { destruct (t_is_encrypted s); [rewrite K by reflexivity|]; reflexivity. }
  cbv zeta in R. fold m in R. destruct (m_is_complete m); [unbind R; congruence|congruence].
Qed.

Section Shown.
  Variable env : Env.
  Let d := env_tmc env.
  Variable line : bytes.
  Variable j : json.
  Hypothesis Sh : forall q, line_at q line = option_map (value_of (env_float env)) (jget q j).
  Variable ms : tmc_message.
  Hypothesis Mok : message_ok ms.
  Variable y z : N.
  Hypothesis Hy : getBits 11 y 0 = ms_event ms /\ getBits 3 y 11 = ms_extent ms /\ getBool y 14 = ms_negative ms.
  Variables (s : TMCService) (m1 : Message) (j0 : json).
  Let e := t_is_encrypted s.
  Hypothesis M : means d (m_set_head d (Message_new e) y z) (ms_fields ms) m1.
  Hypothesis F : finish_message d s m1 j0 = Ok j.

  Lemma head_complete : m_is_complete m1 = true /\ m_events m1 <> [].
  Proof. destruct M as [? ? ? ? A5 ? ? ? ? A10 ? ? ? ? ?]. rewrite A10, A5. split; [reflexivity|]. cbn [m_set_head m_events app]. discriminate. Qed.
  Lemma finished_content : shows_content d line ms.
  Proof.
    destruct head_complete as [C E]. destruct (finish_parts _ _ _ _ _ F C E) as (m2 & j1 & K & _ & _). destruct (with_key_same _ _ _ _ K) as [Sc _].
    apply (content_shown env line j Sh ms Mok y Hy e z m1 m2 M Sc).
    intros k Hk. destruct (finish_shows _ _ _ _ _ k F C E Hk) as (m' & K' & J). fold (with_key d s m1) in K'. rewrite K in K'. injection K' as <-. exact J.
  Qed.
  Lemma finished_location : exists m2, with_key d s m1 = Ok m2 /\
    shows_number line "location" (if m_is_encrypted m2 then None else Some (m_location m2)) /\
    shows_number line "encrypted_location" (if e then Some (m_encrypted_location m2) else None).
  Proof.
    destruct head_complete as [C E]. destruct (finish_shows _ _ _ _ _ "location" F C E eq_refl) as (m2 & K & J1). exists m2. split; [exact K|].
    destruct (finish_shows _ _ _ _ _ "encrypted_location" F C E eq_refl) as (m' & K' & J2). rewrite K in K'. injection K' as <-.
    destruct (with_key_same _ _ _ _ K) as [Sc We]. destruct Sc as (_ & _ & Ev & _ & _ & _ & Cp & _).
    assert (C2 : m_is_complete m2 = true) by congruence. assert (E2 : m_events m2 <> []) by (rewrite Ev; exact E).
    rewrite (mem_location d m2 C2 E2) in J1. rewrite (mem_encrypted d m2 C2 E2) in J2. rewrite We, (mn_was _ _ _ _ M) in J2. cbn [m_set_head Message_new m_was_encrypted] in J2.
    split; apply (shown_number env line j Sh); [rewrite J1; destruct (m_is_encrypted m2); reflexivity|rewrite J2; destruct e; reflexivity].
  Qed.
  Lemma location_values : m_is_encrypted m1 = e /\ m_location m1 = (if e then 0 else z) /\ m_encrypted_location m1 = (if e then z else 0).
  Proof. destruct M as [A1 _ _ _ _ _ _ A8 A9 _ _ _ _ _ _]. rewrite A1, A8, A9. repeat split. Qed.
  Lemma plain_location : e = false -> shows_number line "location" (Some z) /\ shows_number line "encrypted_location" None.
  Proof.
    intros E. destruct finished_location as (m2 & K & L1 & L2). destruct location_values as (V1 & V2 & V3). unfold with_key in K. fold e in K. rewrite E in *. injection K as <-. rewrite V1, V2 in L1. auto.
  Qed.
  Lemma locked_location : e = true -> td_key d (t_encid s) = None -> shows_number line "location" None /\ shows_number line "encrypted_location" (Some z).
  Proof.
    intros E Kn. destruct finished_location as (m2 & K & L1 & L2). destruct location_values as (V1 & V2 & V3). unfold with_key in K. fold e in K. rewrite E, Kn in *. injection K as <-. rewrite V1 in L1. rewrite V3 in L2. auto.
  Qed.
  Lemma keyed_location : forall nrot pattern v, e = true -> key_of d (t_encid s) nrot pattern -> v < 65536 -> z = encrypted nrot pattern v ->
    shows_number line "location" (Some v) /\ shows_number line "encrypted_location" (Some z).
  Proof.
    intros nrot pattern v E (k & Kk & Kr & Kn & Kp) Hv Hz. destruct finished_location as (m2 & K & L1 & L2). destruct location_values as (V1 & V2 & V3).
    unfold with_key in K. fold e in K. rewrite E, Kk in *. unfold m_decrypt in K. rewrite V1 in K. cbn [negb] in K. destruct (_ || _); [discriminate|].
    rewrite V3 in K. injection K as <-. cbn [m_is_encrypted m_location m_encrypted_location] in L1, L2. rewrite N.shiftl_mul_pow2 in L1. unfold u16 in L1. change (2 ^ 16) with 65536 in L1. rewrite Kp, Hz, Kr, decrypted in L1 by (subst nrot; assumption).
    rewrite ?V3 in L2. auto.
  Qed.
  (* The place, for an unencrypted service whose table is loaded *)
  Lemma plain_place : e = false -> db_ltn (td_locdb d (t_ltn s)) = t_ltn s -> t_ltn s <> 0 -> z = ms_location ms ->
    shows_place (env_float env) line (td_locdb d (t_ltn s)) ms.
  Proof.
    intros E El N0 Ez. destruct head_complete as [C Ev]. destruct (finish_parts _ _ _ _ _ F C Ev) as (m2 & j1 & K & Js & D). unfold with_key in K. fold e in K. rewrite E in K. injection K as <-.
    destruct location_values as (V1 & V2 & V3). rewrite E in *. rewrite V1 in D. cbn [negb] in D.
    assert (Jn : forall k, located k = true -> jget (msg k) j1 = None).
    { intros k Hk. change (msg k) with (["tmc"; "message"] ++ [k]). rewrite (jset_inside _ _ _ _ _ Js). apply mem_located. exact Hk. }
    pose proof (members_of _ _ _ _ _ _ _ D El N0 Jn) as Mem. clear D Jn. rewrite V2 in Mem.
    unfold shows_place. cbv zeta. destruct M as [_ _ A3 A4 _ _ _ _ _ _ _ _ _ _ _]. cbn [m_set_head m_direction m_extent] in A3, A4. destruct Hy as (_ & Y2 & Y3). rewrite Y3 in A3. rewrite Y2 in A4.
    assert (Ex : m_extent m1 = extent_of ms) by (rewrite A4; reflexivity). rewrite Ex in Mem. rewrite <- Ez. unfold says, shows_text.
    destruct (db_points _ z) as [pt|] eqn:Ep.
    2: { repeat (apply Forall_cons; [rewrite Sh, Mem by reflexivity; reflexivity|]). apply Forall_nil. }
    set (b := negb _ || _) in Mem. pose proof (walk_along (td_locdb d (t_ltn s)) b (Datatypes.S (N.to_nat (extent_of ms))) z) as W. cbv zeta in W.
    assert (Eb : b = negb (ms_negative ms && negb (extent_of ms =? 0))). { unfold b. rewrite A3. destruct (ms_negative ms), (extent_of ms =? 0); reflexivity. }
    set (points := walk _ _ _ _) in *.
    assert (Tx : forall k t, located k = true -> place_member (td_locdb d (t_ltn s)) pt points k = option_map JStr t -> line_at (msg k) line = option_map VStr t).
    { intros k t Hk P. rewrite Sh, (Mem k Hk), P. destruct t; reflexivity. }
    exists points. split; [rewrite Sh, Mem by reflexivity; cbn [place_member String.eqb Ascii.eqb Bool.eqb option_map value_of]; rewrite map_map; f_equal; f_equal; apply map_ext; intros p; apply value_coordinate|].
    split; [|split; [|split; [|split; [apply Tx; reflexivity|split; [apply Tx; reflexivity|split; [apply Tx; reflexivity|apply Tx; reflexivity]]]]]].
    all: rewrite Eb in *; destruct (ms_negative ms && negb (extent_of ms =? 0)); apply W.
  Qed.
End Shown.
