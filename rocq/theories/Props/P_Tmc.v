(* C41-C46, C69: traffic messages. *)
From Verif.Model Require Import Base Util Group Options Tables Json RdsString Tmc Station Channel.
From Verif.Spec Require Import Numerals Unicode JsonText Session Identity History Quality Texts Apps Fields Frequencies Traffic Host Cases.
From Verif.Proofs Require Import JsonP SessionP Utf8P  Tac Numerals TextP UpdateP SessionP ChannelP HostP AppsP TmcHistP TmcRunP TmcOnlyP.
From Verif.Props Require Import P_Channel P_Radiotext.

Local Open Scope string_scope.
Local Open Scope N_scope.
Local Open Scope list_scope.

(* --- C69 --- *)
(* A service that is not encrypted: a single-group message is shown as sent. *)
Theorem C69_single_group_message : forall env o w0 gs0 gs1 now g w c out p ms flag duration,
  host_ok env -> host_text env -> o_output_type o = OutJSON ->
  traffic_from p gs0 (gs1 ++ [(now, g, w)]) ->
  never_encrypted (items_of (gs0 ++ gs1)) -> tmc_started (items_of gs1) ->
  message_ok ms -> ms_fields ms = [] -> duration < 8 -> user_groups (app_items (g, w)) = [single_group ms flag duration] ->
  run_groups env o (Channel_new o w0) (gs0 ++ gs1 ++ [(now, g, w)]) = Ok (c, out) ->
  exists out' line, out = out' ++ [Some line] /\ shows_message (env_tmc env) line ms.
Proof.
  intros env o w0 gs0 gs1 now g w c out p ms flag duration H HT OJ T Ne St Mok Nf Hd U E.
  destruct (single_shown env o H HT OJ false w0 gs0 gs1 now g w c out p ms flag duration T) as (out' & line & Eo & Sc & Sl & _); try assumption.
  { split; [apply enc_never; exact Ne|]. split; [intros _; exact St|discriminate]. }
  exists out', line. split; [exact Eo|]. split; [exact Sc|]. destruct (Sl eq_refl) as (L1 & L2 & _). auto.
Qed.
Print Assumptions C69_single_group_message.

(* --- C42 --- *)
(* A message of two or of five groups, all received one after the other: everything it says is shown
   with its last group, whatever groups of other messages were received before. *)
Theorem C42_multi_group_message : forall env o w0 gs0 gs1 now g w c out p ms l1 l2 earlier ci groups,
  host_ok env -> host_text env -> o_output_type o = OutJSON ->
  traffic_from p gs0 (gs1 ++ [(now, g, w)]) ->
  never_encrypted (items_of (gs0 ++ gs1 ++ [(now, g, w)])) ->
  items_of (gs1 ++ [(now, g, w)]) = l1 ++ l2 -> tmc_started l1 ->
  message_ok ms -> sent_in ms groups -> length groups = 2%nat \/ length groups = 5%nat ->
  multi_groups l2 = earlier ++ map (pair ci) groups ->
  multi_groups (app_items (g, w)) <> [] ->
  run_groups env o (Channel_new o w0) (gs0 ++ gs1 ++ [(now, g, w)]) = Ok (c, out) ->
  exists out' line, out = out' ++ [Some line] /\ shows_message (env_tmc env) line ms.
Proof.
  intros env o w0 gs0 gs1 now g w c out p ms l1 l2 earlier ci groups H HT OJ T Ne El St Mok Sn Ln Em Nm E.
  destruct (multi_shown env o H HT OJ false w0 gs0 gs1 now g w c out p ms l1 l2 earlier ci groups T El) as (out' & line & Eo & Sc & Sl & _); try assumption.
  { split; [apply enc_never; exact Ne|]. split; [intros _; exact St|discriminate]. }
  exists out', line. split; [exact Eo|]. split; [exact Sc|]. destruct (Sl eq_refl) as (L1 & L2 & _). auto.
Qed.
Print Assumptions C42_multi_group_message.

(* --- C41 --- *)
(* An encrypted service, of which the last key number received is that of a known key: what is shown as
   the location is what was encrypted with the key. *)
Theorem C41_encrypted_single_group_message : forall env o w0 gs0 gs1 now g w c out p ms flag duration key nrot pattern,
  host_ok env -> host_text env -> o_output_type o = OutJSON ->
  traffic_from p gs0 (gs1 ++ [(now, g, w)]) ->
  always_encrypted (items_of (gs0 ++ gs1)) -> last_key (items_of gs1) key -> key_of (env_tmc env) key nrot pattern ->
  message_ok ms -> message_ok (scrambled nrot pattern ms) -> ms_fields ms = [] -> duration < 8 ->
  user_groups (app_items (g, w)) = [single_group (scrambled nrot pattern ms) flag duration] ->
  run_groups env o (Channel_new o w0) (gs0 ++ gs1 ++ [(now, g, w)]) = Ok (c, out) ->
  exists out' line, out = out' ++ [Some line] /\ shows_content (env_tmc env) line ms /\
    shows_number line "location" (Some (ms_location ms)) /\
    shows_number line "encrypted_location" (Some (encrypted nrot pattern (ms_location ms))).
Proof.
  intros env o w0 gs0 gs1 now g w c out p ms flag duration key nrot pattern H HT OJ T Ae Lk Kn Mok Mok' Nf Hd U E.
  destruct (single_shown env o H HT OJ true w0 gs0 gs1 now g w c out p (scrambled nrot pattern ms) flag duration T) as (out' & line & Eo & Sc & _ & Sl); try assumption.
  { split; [apply enc_always; exact Ae|]. split; [discriminate|intros _; exists key; exact Lk]. }
  exists out', line. split; [exact Eo|]. split; [exact Sc|]. destruct (Sl eq_refl key Lk) as (L1 & _ & L2). split; [|exact L1].
  apply (L2 nrot pattern); [exact Kn|apply Mok|reflexivity].
Qed.
Print Assumptions C41_encrypted_single_group_message.

Theorem C41_encrypted_multi_group_message : forall env o w0 gs0 gs1 now g w c out p ms l1 l2 earlier ci groups key nrot pattern,
  host_ok env -> host_text env -> o_output_type o = OutJSON ->
  traffic_from p gs0 (gs1 ++ [(now, g, w)]) ->
  always_encrypted (items_of (gs0 ++ gs1 ++ [(now, g, w)])) ->
  items_of (gs1 ++ [(now, g, w)]) = l1 ++ l2 -> (exists key', last_key l1 key') ->
  last_key (items_of gs1) key -> key_of (env_tmc env) key nrot pattern ->
  message_ok ms -> message_ok (scrambled nrot pattern ms) -> sent_in (scrambled nrot pattern ms) groups -> length groups = 2%nat \/ length groups = 5%nat ->
  multi_groups l2 = earlier ++ map (pair ci) groups ->
  multi_groups (app_items (g, w)) <> [] ->
  run_groups env o (Channel_new o w0) (gs0 ++ gs1 ++ [(now, g, w)]) = Ok (c, out) ->
  exists out' line, out = out' ++ [Some line] /\ shows_content (env_tmc env) line ms /\
    shows_number line "location" (Some (ms_location ms)) /\
    shows_number line "encrypted_location" (Some (encrypted nrot pattern (ms_location ms))).
Proof.
  intros env o w0 gs0 gs1 now g w c out p ms l1 l2 earlier ci groups key nrot pattern H HT OJ T Ae El Lk1 Lk Kn Mok Mok' Sn Ln Em Nm E.
  destruct (multi_shown env o H HT OJ true w0 gs0 gs1 now g w c out p (scrambled nrot pattern ms) l1 l2 earlier ci groups T El) as (out' & line & Eo & Sc & _ & Sl); try assumption.
  { split; [apply enc_always; exact Ae|]. split; [discriminate|intros _; exact Lk1]. }
  exists out', line. split; [exact Eo|]. split; [exact Sc|]. destruct (Sl eq_refl key Lk) as (L1 & _ & L2). split; [|exact L1].
  apply (L2 nrot pattern); [exact Kn|apply Mok|reflexivity].
Qed.
Print Assumptions C41_encrypted_multi_group_message.

(* --- C44 --- *)
(* If all system information says that the service is encrypted, and none of the key numbers received is
   that of a known key, no line shows a location, coordinates, places or roads. *)
Theorem C44_locations_stay_hidden : forall env o w0 gs now g w c out line k,
  host_ok env -> o_output_type o = OutJSON -> Forall received_group (gs ++ [(now, g, w)]) ->
  always_encrypted (items_of (gs ++ [(now, g, w)])) ->
  (forall t b2 b3 b4, In (AppData t b2 b3 b4) (items_of (gs ++ [(now, g, w)])) -> b2 mod 32 = 0 -> td_key (env_tmc env) (b3 mod 32) = None) ->
  run_groups env o (Channel_new o w0) (gs ++ [(now, g, w)]) = Ok (c, out ++ [Some line]) ->
  In k ["location"; "coordinates"; "span_from"; "span_to"; "road_number"; "road_name"] -> line_at (msg k) line = None.
Proof.
  intros env o w0 gs now g w c out line k H OJ F Ae Nk E Hk. apply (never_shown env o w0 gs now g w c out line k H OJ F Ae Nk E).
  destruct Hk as [<-|Hk]; [left; reflexivity|right]. repeat (destruct Hk as [<-|Hk]; [reflexivity|]). destruct Hk.
Qed.
Print Assumptions C44_locations_stay_hidden.

(* --- C45 --- *)
(* A line shows a message only if its group completes one: the event and the location are those of the
   first group of that message. *)
Theorem C45_only_complete_messages : forall env o w0 gs now g w c out line k v,
  host_ok env -> o_output_type o = OutJSON -> Forall received_group (gs ++ [(now, g, w)]) ->
  tmc_in_8A (items_of (gs ++ [(now, g, w)])) -> stays_tmc (items_of (gs ++ [(now, g, w)])) ->
  never_encrypted (items_of (gs ++ [(now, g, w)])) ->
  run_groups env o (Channel_new o w0) (gs ++ [(now, g, w)]) = Ok (c, out ++ [Some line]) -> says line (msg k) v ->
  exists x y z yh zh, user_groups (app_items (g, w)) = [(x, y, z)] /\ completes (flat_map app_items (decoded_in gs out)) x y z yh zh /\
    (exists t r, says line (msg "event_codes") (VArr (VNum t :: r)) /\ numeral 10 t = Some (yh mod 2048)) /\
    shows_number line "location" (Some zh).
Proof.
  intros env o w0 gs now g w c out line k v H OJ F T8 St He E S.
  destruct (only_complete env o false w0 gs now g w c out line k v H OJ F T8 St (proj1 (enc_never _) He) E S) as (x & y & z & yh & zh & Eu & Cm & Ev & Lc).
  exists x, y, z, yh, zh. auto.
Qed.
Print Assumptions C45_only_complete_messages.
Theorem C45_only_complete_encrypted_messages : forall env o w0 gs now g w c out line k v,
  host_ok env -> o_output_type o = OutJSON -> Forall received_group (gs ++ [(now, g, w)]) ->
  tmc_in_8A (items_of (gs ++ [(now, g, w)])) -> stays_tmc (items_of (gs ++ [(now, g, w)])) ->
  always_encrypted (items_of (gs ++ [(now, g, w)])) ->
  run_groups env o (Channel_new o w0) (gs ++ [(now, g, w)]) = Ok (c, out ++ [Some line]) -> says line (msg k) v ->
  exists x y z yh zh, user_groups (app_items (g, w)) = [(x, y, z)] /\ completes (flat_map app_items (decoded_in gs out)) x y z yh zh /\
    (exists t r, says line (msg "event_codes") (VArr (VNum t :: r)) /\ numeral 10 t = Some (yh mod 2048)).
Proof.
  intros env o w0 gs now g w c out line k v H OJ F T8 St He E S.
  destruct (only_complete env o true w0 gs now g w c out line k v H OJ F T8 St (proj1 (enc_always _) He) E S) as (x & y & z & yh & zh & Eu & Cm & Ev & Lc).
  exists x, y, z, yh, zh. auto.
Qed.
Print Assumptions C45_only_complete_encrypted_messages.

(* --- C46 --- *)
(* The coordinates shown are those of the points along the road from the location, at most one more than
   the extent says, whatever the table: in particular if its points form a circle. *)
Theorem C46_places_single_group_message : forall env o w0 gs0 gs1 now g w c out p ms flag duration table,
  host_ok env -> host_text env -> o_output_type o = OutJSON ->
  traffic_from p gs0 (gs1 ++ [(now, g, w)]) ->
  never_encrypted (items_of (gs0 ++ gs1)) -> tmc_started (items_of gs1) ->
  last_table (items_of gs1) table -> table <> 0 -> db_ltn (td_locdb (env_tmc env) table) = table ->
  message_ok ms -> ms_fields ms = [] -> duration < 8 -> user_groups (app_items (g, w)) = [single_group ms flag duration] ->
  run_groups env o (Channel_new o w0) (gs0 ++ gs1 ++ [(now, g, w)]) = Ok (c, out) ->
  exists out' line, out = out' ++ [Some line] /\ shows_place (env_float env) line (td_locdb (env_tmc env) table) ms.
Proof.
  intros env o w0 gs0 gs1 now g w c out p ms flag duration table H HT OJ T Ne St Lt N0 Et Mok Nf Hd U E.
  destruct (single_shown env o H HT OJ false w0 gs0 gs1 now g w c out p ms flag duration T) as (out' & line & Eo & Sc & Sl & _); try assumption.
  { split; [apply enc_never; exact Ne|]. split; [intros _; exact St|discriminate]. }
  exists out', line. split; [exact Eo|]. destruct (Sl eq_refl) as (_ & _ & L3). apply L3; assumption.
Qed.
Print Assumptions C46_places_single_group_message.
Theorem C46_places_multi_group_message : forall env o w0 gs0 gs1 now g w c out p ms l1 l2 earlier ci groups table,
  host_ok env -> host_text env -> o_output_type o = OutJSON ->
  traffic_from p gs0 (gs1 ++ [(now, g, w)]) ->
  never_encrypted (items_of (gs0 ++ gs1 ++ [(now, g, w)])) ->
  items_of (gs1 ++ [(now, g, w)]) = l1 ++ l2 -> tmc_started l1 ->
  last_table (items_of gs1) table -> table <> 0 -> db_ltn (td_locdb (env_tmc env) table) = table ->
  message_ok ms -> sent_in ms groups -> length groups = 2%nat \/ length groups = 5%nat ->
  multi_groups l2 = earlier ++ map (pair ci) groups ->
  multi_groups (app_items (g, w)) <> [] ->
  run_groups env o (Channel_new o w0) (gs0 ++ gs1 ++ [(now, g, w)]) = Ok (c, out) ->
  exists out' line, out = out' ++ [Some line] /\ shows_place (env_float env) line (td_locdb (env_tmc env) table) ms.
Proof.
  intros env o w0 gs0 gs1 now g w c out p ms l1 l2 earlier ci groups table H HT OJ T Ne El St Lt N0 Et Mok Sn Ln Em Nm E.
  destruct (multi_shown env o H HT OJ false w0 gs0 gs1 now g w c out p ms l1 l2 earlier ci groups T El) as (out' & line & Eo & Sc & Sl & _); try assumption.
  { split; [apply enc_never; exact Ne|]. split; [intros _; exact St|discriminate]. }
  exists out', line. split; [exact Eo|]. destruct (Sl eq_refl) as (_ & _ & L3). apply L3; assumption.
Qed.
Print Assumptions C46_places_multi_group_message.

(* ---- cases ---- *)
(* A host with tables: one event; four points in a circle; one key *)
Definition traffic_point (n : string) (next prev : N) : Point :=
  mkPoint (bs n) (bs "") 7 prev next (SpecFloat.S754_zero false) (SpecFloat.S754_zero true).
Definition traffic_tables : TmcData := mkTmcData
  (fun c => if c =? 101 then Some (mkEvent (bs "stationary traffic") (bs "stationary traffic for _") QLessThanMetres DBoth UU 1 true) else None)
  (fun c => if c =? 20 then Some (bs "on bridges") else None)
  (fun t => if t =? 1 then mkLocdb 1 (fun c => if c =? 100 then Some (traffic_point "A" 101 103) else if c =? 101 then Some (traffic_point "B" 102 100)
              else if c =? 102 then Some (traffic_point "C" 103 101) else if c =? 103 then Some (traffic_point "D" 100 102) else None)
              (fun c => if c =? 7 then Some (mkRoad (bs "E12") (bs "Ring")) else None)
            else LocationDatabase_default)
  (fun k => if k =? 5 then Some (mkServiceKey 0x3F 2 3) else None).
Definition traffic_host : Env :=
  mkEnv (fun _ => None) (bs "iconv error") (fun _ => bs "[json.exception.type_error.316]")
        (fun _ t => Some (dec_string_Z t)) utc_normalise (fun _ => bs "0.0") traffic_tables.
Definition traffic_last (gs : list (Z * Group * N)) : option bytes :=
  match run_groups traffic_host Options_default (Channel_new Options_default 0) gs with
  | Ok (_, out) => last out None
  | _ => None
  end.
Ltac in_table := intros; repeat match goal with X : (if ?c then _ else _) = Some _ |- _ => destruct c; [injection X as <-|] end; try discriminate;
  try (split; apply valid_is_utf8; reflexivity); apply valid_is_utf8; reflexivity.
Example traffic_host_meets : host_ok traffic_host /\ host_text traffic_host.
Proof.
  split.
  - split; [|split; [intros j; apply valid_is_utf8; reflexivity|intros f; right; reflexivity]].
    intros i k X. cbn [env_tmc traffic_host td_key traffic_tables] in X. destruct (i =? 5); [injection X as <-; split; reflexivity|discriminate].
  - split; [apply valid_is_utf8; reflexivity|]. split.
    + intros f t s X. injection X as <-. apply valid_is_utf8. apply (num_small (dec_string_Z t)), dec_string_Z_chars.
    + cbn [env_tmc traffic_host traffic_tables td_event td_suppl td_locdb]. split; [in_table|]. split; [in_table|]. split.
      * intros l c q X. destruct (l =? 1); cbn [db_points] in X; revert X; in_table.
      * intros l c q X. destruct (l =? 1); cbn [db_roads] in X; revert X; in_table.
Qed.

Definition plain_service : Group := rt2 0x3410 0x0040 0xCD46.
Definition the_jam : tmc_message := mkTmcMessage true 2 101 100 [].
Definition jam_2 : tmc_message := mkTmcMessage true 2 101 100 [(3, 10); (6, 20)].
Definition jam_5 : tmc_message := mkTmcMessage true 2 101 100 [(9, 201); (6, 20); (3, 10); (7, 34); (1, 0); (10, 1234); (1, 6)].
Definition groups_2 : list (N * N) := [(0xD065, 0x0064); (0x4353, 0x0A00)].
Definition groups_5 : list (N * N) := [(0xD065, 0x0064); (0x7919, 0x2C28); (0x26A7, 0x2211); (0x1409, 0xA438); (0x0000, 0x0000)].
Definition sending (ci : N) (l : list (N * N)) : list Group := map (fun yz => rt2 (0x8400 + ci) (fst yz) (snd yz)) l.
Ltac field := split; [cbn; lia|split; [reflexivity|discriminate]].
Ltac meet := split; [repeat constructor; reflexivity|]; split; [discriminate|]; split; [exists []; reflexivity|]; split; [repeat constructor; right; reflexivity|];
  split; [repeat constructor; intros _; reflexivity|]; split;
  [intros t a m X; vm_compute in X; repeat (destruct X as [X|X]; [first [discriminate X|injection X as <- <- <-; reflexivity]|]); destruct X
  |intros a m X; vm_compute in X; repeat (destruct X as [X|X]; [first [discriminate X|injection X as <- <-; reflexivity]|]); destruct X].
Ltac plainly := intros t a m X; vm_compute in X; repeat (destruct X as [X|X]; [first [discriminate X|injection X as <- <- <-; intros _ _; vm_compute; discriminate]|]); destruct X.

Example C69_case : let gs1 := at_times 11 [plain_service] in let g := rt2 0x8408 0x5065 0x0064 in
  traffic_from 0x2204 ps_groups (gs1 ++ [((12 * sec)%Z, g, 0)]) /\ never_encrypted (items_of (ps_groups ++ gs1)) /\ tmc_started (items_of gs1) /\
  last_table (items_of gs1) 1 /\ db_ltn (td_locdb (env_tmc traffic_host) 1) = 1 /\
  message_ok the_jam /\ user_groups (app_items (g, 0)) = [single_group the_jam false 0] /\
  exists line, traffic_last (ps_groups ++ gs1 ++ [((12 * sec)%Z, g, 0)]) = Some line /\ says line (msg "location") (VNum (bs "100")) /\
    says line (msg "extent") (VStr (bs "-2")) /\ says line (msg "event_codes") (VArr [VNum (bs "101")]) /\ says line (msg "description") (VStr (bs "Stationary traffic.")) /\
    says line (msg "span_from") (VStr (bs "A")) /\ says line (msg "span_to") (VStr (bs "C")) /\ says line (msg "road_number") (VStr (bs "E12")) /\
    exists a b c, says line (msg "coordinates") (VArr [a; b; c]).
Proof.
  split; [meet|]. split; [plainly|]. split; [exists type_8A, 0xCD46, 0x0040; split; [left; reflexivity|split; reflexivity]|].
  split; [exists [], type_8A, 0xCD46, 0x0040, []; split; [reflexivity|]; split; [reflexivity|]; split; [reflexivity|]; split; [reflexivity|]; split; [intros x []|intros t a m []]|].
  split; [reflexivity|]. split; [split; [reflexivity|split; [reflexivity|split; [reflexivity|constructor]]]|]. split; [reflexivity|].
  eexists. split; [vm_compute; reflexivity|]. repeat (split; [vm_compute; reflexivity|]). do 3 eexists. vm_compute. reflexivity.
Qed.

(* Groups of another message before those of the message; the last group is the one that completes it *)
Definition before_last (gs : list Group) : list (Z * Group * N) := at_times 11 (removelast gs).
Definition the_last (gs : list Group) : Group := last gs (rt2 0 0 0).
Definition with_groups (service : list Group) (l : list (N * N)) : list Group := service ++ rt2 0x8403 0xD065 0x0064 :: sending 5 l.
Ltac field_cases := split; [reflexivity|split; [reflexivity|split; [reflexivity|repeat (apply Forall_cons; [field|]); apply Forall_nil]]].
Ltac in_order k := eexists; exists k; split; [reflexivity|]; split; [vm_compute; reflexivity|];
  intros i y z X; repeat (destruct i as [|i]; [injection X as <- <-; vm_compute; reflexivity|cbn [nth_error] in X]); destruct i; discriminate X.

Example sent_2 : message_ok jam_2 /\ sent_in jam_2 groups_2.
Proof. split; [field_cases|in_order 7%nat]. Qed.
Example sent_5 : message_ok jam_5 /\ sent_in jam_5 groups_5.
Proof. split; [field_cases|in_order 30%nat]. Qed.

Example C42_case : let all := with_groups [plain_service] groups_5 in
  let gs := before_last all ++ [((20 * sec)%Z, the_last all, 0)] in
  traffic_from 0x2204 ps_groups gs /\ never_encrypted (items_of (ps_groups ++ gs)) /\
  (exists l1 l2, items_of gs = l1 ++ l2 /\ tmc_started l1 /\ multi_groups l2 = (3, (0xD065, 0x0064)) :: map (pair 5) groups_5) /\
  last_table (items_of (before_last all)) 1 /\
  multi_groups (app_items (the_last all, 0)) <> [] /\
  exists line, traffic_last (ps_groups ++ gs) = Some line /\ says line (msg "location") (VNum (bs "100")) /\
    says line (msg "extent") (VStr (bs "-10")) /\ says line (msg "event_codes") (VArr [VNum (bs "101"); VNum (bs "201")]) /\
    says line (msg "speed_limit") (VStr (bs "50 km/h")) /\ says line (msg "starts") (VStr (bs "08:30")) /\ says line (msg "urgency") (VStr (bs "X")) /\
    says line (msg "diversion_route") (VArr [VNum (bs "1234")]) /\
    (* eleven points, although the table has only four *)
    exists points, says line (msg "coordinates") (VArr points) /\ length points = 11%nat.
Proof.
  cbv zeta. split; [meet|]. split; [plainly|].
  split; [exists [Announced type_8A 0xCD46 0x0040]; eexists; split; [vm_compute; reflexivity|split; [exists type_8A, 0xCD46, 0x0040; split; [left; reflexivity|split; reflexivity]|vm_compute; reflexivity]]|].
  split.
  { exists [], type_8A, 0xCD46, 0x0040. eexists. split; [vm_compute; reflexivity|]. split; [reflexivity|]. split; [reflexivity|]. split; [reflexivity|].
    split; [intros x X (y & z & Y)|intros t a m X]; vm_compute in X.
    - repeat (destruct X as [<-|X]; [vm_compute in Y; destruct Y as [Y|[]]; discriminate Y|]). destruct X.
    - repeat (destruct X as [X|X]; [discriminate X|]). destruct X. }
  split; [discriminate|].
  eexists. split; [vm_compute; reflexivity|]. repeat (split; [vm_compute; reflexivity|]). eexists. split; vm_compute; reflexivity.
Qed.

(* An encrypted service: the key number in the key group is 5 *)
Definition encrypted_service : list Group := [rt2 0x3410 0x0000 0xCD46; rt2 0x8400 0x0025 0x0400].
Definition pattern_5 : N := 0x3F * 2 ^ 2.
Example key_5 : key_of traffic_tables 5 3 pattern_5 /\ encrypted 3 pattern_5 100 = 0x80F0 /\ message_ok (scrambled 3 pattern_5 jam_2).
Proof.
  split; [exists (mkServiceKey 0x3F 2 3); repeat split|]. split; [reflexivity|field_cases].
Qed.
Definition secret_2 : list (N * N) := [(0xD065, 0x80F0); (0x4353, 0x0A00)].
Ltac all_encrypted := intros t a m X; vm_compute in X; repeat (destruct X as [X|X]; [first [discriminate X|injection X as <- <- <-; intros _ _; reflexivity]|]); destruct X.
Example C41_case_single : let gs1 := at_times 11 encrypted_service in let g := rt2 0x8408 0x5065 0x80F0 in
  traffic_from 0x2204 ps_groups (gs1 ++ [((14 * sec)%Z, g, 0)]) /\ always_encrypted (items_of (ps_groups ++ gs1)) /\ last_key (items_of gs1) 5 /\
  user_groups (app_items (g, 0)) = [single_group (scrambled 3 pattern_5 the_jam) false 0] /\
  exists line, traffic_last (ps_groups ++ gs1 ++ [((14 * sec)%Z, g, 0)]) = Some line /\ says line (msg "location") (VNum (bs "100")) /\
    says line (msg "encrypted_location") (VNum (bs "33008")).
Proof.
  cbv zeta. split; [meet|]. split; [all_encrypted|].
  split.
  { exists [Announced type_8A 0xCD46 0], (AppData type_8A 0x8400 0x0025 0x0400), [], 0x25, 0x400. split; [vm_compute; reflexivity|].
    split; [exists type_8A, 0xCD46, 0; split; [left; reflexivity|split; reflexivity]|]. split; [reflexivity|]. split; [reflexivity|]. intros x []. }
  split; [vm_compute; reflexivity|].
  eexists. split; [vm_compute; reflexivity|]. split; vm_compute; reflexivity.
Qed.
Example C41_case_multi : let all := with_groups encrypted_service secret_2 in
  let gs := before_last all ++ [((20 * sec)%Z, the_last all, 0)] in
  traffic_from 0x2204 ps_groups gs /\ always_encrypted (items_of (ps_groups ++ gs)) /\
  (exists l1 l2, items_of gs = l1 ++ l2 /\ last_key l1 5 /\ multi_groups l2 = (3, (0xD065, 0x0064)) :: map (pair 5) secret_2) /\
  last_key (items_of (before_last all)) 5 /\ sent_in (scrambled 3 pattern_5 jam_2) secret_2 /\
  multi_groups (app_items (the_last all, 0)) <> [] /\
  exists line, traffic_last (ps_groups ++ gs) = Some line /\ says line (msg "location") (VNum (bs "100")) /\
    says line (msg "encrypted_location") (VNum (bs "33008")) /\ says line (msg "supplementary_codes") (VArr [VNum (bs "20")]).
Proof.
  cbv zeta. split; [meet|]. split; [all_encrypted|].
  assert (K : last_key [Announced type_8A 0xCD46 0; AppData type_8A 0x8400 0x0025 0x0400] 5).
  { exists [Announced type_8A 0xCD46 0], (AppData type_8A 0x8400 0x0025 0x0400), [], 0x25, 0x400. split; [vm_compute; reflexivity|].
    split; [exists type_8A, 0xCD46, 0; split; [left; reflexivity|split; reflexivity]|]. split; [reflexivity|]. split; [reflexivity|]. intros x []. }
  split; [exists [Announced type_8A 0xCD46 0; AppData type_8A 0x8400 0x0025 0x0400]; eexists; split; [vm_compute; reflexivity|split; [exact K|vm_compute; reflexivity]]|].
  split.
  { exists [Announced type_8A 0xCD46 0], (AppData type_8A 0x8400 0x0025 0x0400). eexists. exists 0x25, 0x400. split; [vm_compute; reflexivity|].
    split; [exists type_8A, 0xCD46, 0; split; [left; reflexivity|split; reflexivity]|]. split; [reflexivity|]. split; [reflexivity|].
    intros x X (y & z & Y); vm_compute in X. repeat (destruct X as [<-|X]; [vm_compute in Y; destruct Y as [Y|[]]; discriminate Y|]). destruct X. }
  split; [in_order 7%nat|]. split; [discriminate|].
  eexists. split; [vm_compute; reflexivity|]. repeat (split; [vm_compute; reflexivity|]). vm_compute; reflexivity.
Qed.

(* The key number 9 is not that of a known key *)
Example C44_case : let all := with_groups [rt2 0x3410 0x0000 0xCD46; rt2 0x8400 0x0029 0x0400] secret_2 in
  let gs := before_last all ++ [((20 * sec)%Z, the_last all, 0)] in
  Forall received_group (ps_groups ++ gs) /\ always_encrypted (items_of (ps_groups ++ gs)) /\
  (forall t b2 b3 b4, In (AppData t b2 b3 b4) (items_of (ps_groups ++ gs)) -> b2 mod 32 = 0 -> td_key (env_tmc traffic_host) (b3 mod 32) = None) /\
  exists line, traffic_last (ps_groups ++ gs) = Some line /\ says line (msg "encrypted_location") (VNum (bs "33008")).
Proof.
  cbv zeta. split; [repeat constructor; reflexivity|]. split; [all_encrypted|]. split.
  - intros t b2 b3 b4 X; vm_compute in X. repeat (destruct X as [X|X]; [first [discriminate X|injection X as <- <- <- <-; intros Z; first [reflexivity|discriminate Z]]|]). destruct X.
  - eexists. split; [vm_compute; reflexivity|]. vm_compute; reflexivity.
Qed.
(* A line of the kind that C45 speaks about *)
Example C45_case : let all := with_groups [plain_service] groups_2 in
  let gs := before_last all in
  Forall received_group (ps_groups ++ gs ++ [((20 * sec)%Z, the_last all, 0)]) /\ tmc_in_8A (items_of (ps_groups ++ gs ++ [((20 * sec)%Z, the_last all, 0)])) /\
  stays_tmc (items_of (ps_groups ++ gs ++ [((20 * sec)%Z, the_last all, 0)])) /\ never_encrypted (items_of (ps_groups ++ gs ++ [((20 * sec)%Z, the_last all, 0)])) /\
  (exists line v, traffic_last (ps_groups ++ gs ++ [((20 * sec)%Z, the_last all, 0)]) = Some line /\ says line (msg "event_codes") v) /\
  exists line, traffic_last (ps_groups ++ gs) = Some line /\ line_at (msg "event_codes") line = None.
Proof.
  cbv zeta. assert (M : traffic_from 0x2204 ps_groups (before_last (with_groups [plain_service] groups_2) ++ [((20 * sec)%Z, the_last (with_groups [plain_service] groups_2), 0)])) by meet.
  destruct M as (M1 & _ & _ & _ & _ & M2 & M3). split; [exact M1|]. split; [exact M2|]. split; [exact M3|]. split; [plainly|].
  split; [do 2 eexists; split; [vm_compute; reflexivity|]; vm_compute; reflexivity|]. eexists. split; [vm_compute; reflexivity|]. vm_compute; reflexivity.
Qed.

(* --- C43 --- *)
(* Messages of three and of four groups: of the fields, only what is in the second group is used. *)
Definition jam_3 : tmc_message := mkTmcMessage true 2 101 100 [(9, 201); (9, 202)].
Definition groups_3 : list (N * N) := [(0xD065, 0x0064); (0x5919, 0x3232); (0x0800, 0x0000)].
Definition jam_4 : tmc_message := mkTmcMessage true 2 101 100 [(9, 201); (9, 202); (6, 20); (6, 30)].
Definition groups_4 : list (N * N) := [(0xD065, 0x0064); (0x6919, 0x3232); (0x1985, 0x1878); (0x0000, 0x0000)].
Definition C43_claim (n : nat) : Prop := forall env o w0 gs0 gs1 now g w c out p ms l1 l2 earlier b ci groups,
  host_ok env -> host_text env -> o_output_type o = OutJSON ->
  traffic_from p gs0 (gs1 ++ [(now, g, w)]) ->
  never_encrypted (items_of (gs0 ++ gs1 ++ [(now, g, w)])) ->
  items_of (gs1 ++ [(now, g, w)]) = l1 ++ l2 -> tmc_started l1 ->
  message_ok ms -> sent_in ms groups -> length groups = n ->
  multi_groups l2 = earlier ++ b :: map (pair ci) groups -> fst b <> ci \/ last_of_message (fst (snd b)) ->
  multi_groups (app_items (g, w)) <> [] ->
  run_groups env o (Channel_new o w0) (gs0 ++ gs1 ++ [(now, g, w)]) = Ok (c, out) ->
  exists out' line, out = out' ++ [Some line] /\ shows_message (env_tmc env) line ms.
Theorem C43_two_groups : forall env o w0 gs0 gs1 now g w c out p ms l1 l2 earlier ci groups,
  host_ok env -> host_text env -> o_output_type o = OutJSON ->
  traffic_from p gs0 (gs1 ++ [(now, g, w)]) ->
  never_encrypted (items_of (gs0 ++ gs1 ++ [(now, g, w)])) ->
  items_of (gs1 ++ [(now, g, w)]) = l1 ++ l2 -> tmc_started l1 ->
  message_ok ms -> sent_in ms groups -> length groups = 2%nat ->
  multi_groups l2 = earlier ++ map (pair ci) groups ->
  multi_groups (app_items (g, w)) <> [] ->
  run_groups env o (Channel_new o w0) (gs0 ++ gs1 ++ [(now, g, w)]) = Ok (c, out) ->
  exists out' line, out = out' ++ [Some line] /\ shows_message (env_tmc env) line ms.
Proof. intros. eapply C42_multi_group_message; try eassumption. left. assumption. Qed.
Print Assumptions C43_two_groups.
Theorem C43_five_groups : forall env o w0 gs0 gs1 now g w c out p ms l1 l2 earlier ci groups,
  host_ok env -> host_text env -> o_output_type o = OutJSON ->
  traffic_from p gs0 (gs1 ++ [(now, g, w)]) ->
  never_encrypted (items_of (gs0 ++ gs1 ++ [(now, g, w)])) ->
  items_of (gs1 ++ [(now, g, w)]) = l1 ++ l2 -> tmc_started l1 ->
  message_ok ms -> sent_in ms groups -> length groups = 5%nat ->
  multi_groups l2 = earlier ++ map (pair ci) groups ->
  multi_groups (app_items (g, w)) <> [] ->
  run_groups env o (Channel_new o w0) (gs0 ++ gs1 ++ [(now, g, w)]) = Ok (c, out) ->
  exists out' line, out = out' ++ [Some line] /\ shows_message (env_tmc env) line ms.
Proof. intros. eapply C42_multi_group_message; try eassumption. right. assumption. Qed.
Print Assumptions C43_five_groups.

(* A message of three or four groups is shown with those of its fields that are in the second group *)
Theorem C43_three_and_four_groups : forall env o w0 gs0 gs1 now g w c out p ms fs1 l1 l2 earlier b ci groups,
  host_ok env -> host_text env -> o_output_type o = OutJSON ->
  traffic_from p gs0 (gs1 ++ [(now, g, w)]) ->
  never_encrypted (items_of (gs0 ++ gs1 ++ [(now, g, w)])) ->
  items_of (gs1 ++ [(now, g, w)]) = l1 ++ l2 -> tmc_started l1 ->
  message_ok ms -> sent_in ms groups -> length groups = 3%nat \/ length groups = 4%nat ->
  in_second_group (ms_fields ms) fs1 ->
  multi_groups l2 = earlier ++ b :: map (pair ci) groups -> fst b <> ci \/ last_of_message (fst (snd b)) ->
  multi_groups (app_items (g, w)) <> [] ->
  run_groups env o (Channel_new o w0) (gs0 ++ gs1 ++ [(now, g, w)]) = Ok (c, out) ->
  exists out' line, out = out' ++ [Some line] /\ shows_message (env_tmc env) line (with_fields ms fs1).
Proof.
  intros env o w0 gs0 gs1 now g w c out p ms fs1 l1 l2 earlier b ci groups H HT OJ T Ne El St Mok Sn Ln F1 Em Bd Nm E.
  destruct (multi_shown_fields env o H HT OJ false w0 gs0 gs1 now g w c out p ms fs1 l1 l2 earlier b ci groups T El) as (out' & line & Eo & Sc & Sl & _); try assumption.
  { split; [apply enc_never; exact Ne|]. split; [intros _; exact St|discriminate]. }
  { right. split; assumption. }
  exists out', line. split; [exact Eo|]. split; [exact Sc|]. destruct (Sl eq_refl) as (L1 & L2 & _). auto.
Qed.
Print Assumptions C43_three_and_four_groups.

(* Whatever was received before, also parts of another message with the same continuity index: all fields
   are shown, or those in the second group; nothing of the other message. *)
Theorem C116_not_mixed : forall env o w0 gs0 gs1 now g w c out p ms l1 l2 earlier ci groups,
  host_ok env -> host_text env -> o_output_type o = OutJSON ->
  traffic_from p gs0 (gs1 ++ [(now, g, w)]) ->
  never_encrypted (items_of (gs0 ++ gs1 ++ [(now, g, w)])) ->
  items_of (gs1 ++ [(now, g, w)]) = l1 ++ l2 -> tmc_started l1 ->
  message_ok ms -> sent_in ms groups -> (2 <= length groups <= 5)%nat ->
  multi_groups l2 = earlier ++ map (pair ci) groups ->
  multi_groups (app_items (g, w)) <> [] ->
  run_groups env o (Channel_new o w0) (gs0 ++ gs1 ++ [(now, g, w)]) = Ok (c, out) ->
  exists out' line fs1, out = out' ++ [Some line] /\
    (fs1 = ms_fields ms \/ (length groups = 3 \/ length groups = 4)%nat /\ in_second_group (ms_fields ms) fs1) /\
    shows_message (env_tmc env) line (with_fields ms fs1).
Proof.
  intros env o w0 gs0 gs1 now g w c out p ms l1 l2 earlier ci groups H HT OJ T Ne El St Mok Sn Ln Em Nm E.
  destruct (multi_shown_any env o H HT OJ false w0 gs0 gs1 now g w c out p ms l1 l2 earlier ci groups T El) as (out' & line & fs1 & Eo & Fs & Sc & Sl & _); try assumption.
  { split; [apply enc_never; exact Ne|]. split; [intros _; exact St|discriminate]. }
  exists out', line, fs1. split; [exact Eo|]. split; [exact Fs|]. split; [exact Sc|]. destruct (Sl eq_refl) as (L1 & L2 & _). auto.
Qed.
Print Assumptions C116_not_mixed.

(* The same of encrypted messages and of places *)
Theorem C41_encrypted_three_and_four_groups : forall env o w0 gs0 gs1 now g w c out p ms fs1 l1 l2 earlier b ci groups key nrot pattern,
  host_ok env -> host_text env -> o_output_type o = OutJSON ->
  traffic_from p gs0 (gs1 ++ [(now, g, w)]) ->
  always_encrypted (items_of (gs0 ++ gs1 ++ [(now, g, w)])) ->
  items_of (gs1 ++ [(now, g, w)]) = l1 ++ l2 -> (exists key', last_key l1 key') ->
  last_key (items_of gs1) key -> key_of (env_tmc env) key nrot pattern ->
  message_ok ms -> message_ok (scrambled nrot pattern ms) -> sent_in (scrambled nrot pattern ms) groups ->
  length groups = 3%nat \/ length groups = 4%nat -> in_second_group (ms_fields ms) fs1 ->
  multi_groups l2 = earlier ++ b :: map (pair ci) groups -> fst b <> ci \/ last_of_message (fst (snd b)) ->
  multi_groups (app_items (g, w)) <> [] ->
  run_groups env o (Channel_new o w0) (gs0 ++ gs1 ++ [(now, g, w)]) = Ok (c, out) ->
  exists out' line, out = out' ++ [Some line] /\ shows_content (env_tmc env) line (with_fields ms fs1) /\
    shows_number line "location" (Some (ms_location ms)) /\
    shows_number line "encrypted_location" (Some (encrypted nrot pattern (ms_location ms))).
Proof.
  intros env o w0 gs0 gs1 now g w c out p ms fs1 l1 l2 earlier b ci groups key nrot pattern H HT OJ T Ae El Lk1 Lk Kn Mok Mok' Sn Ln F1 Em Bd Nm E.
  destruct (multi_shown_fields env o H HT OJ true w0 gs0 gs1 now g w c out p (scrambled nrot pattern ms) fs1 l1 l2 earlier b ci groups T El) as (out' & line & Eo & Sc & _ & Sl); try assumption.
  { split; [apply enc_always; exact Ae|]. split; [discriminate|intros _; exact Lk1]. }
  { right. split; assumption. }
  exists out', line. split; [exact Eo|]. split; [exact Sc|]. destruct (Sl eq_refl key Lk) as (L1 & _ & L2). split; [|exact L1].
  apply (L2 nrot pattern); [exact Kn|apply Mok|reflexivity].
Qed.
Print Assumptions C41_encrypted_three_and_four_groups.
Theorem C46_places_three_and_four_groups : forall env o w0 gs0 gs1 now g w c out p ms fs1 l1 l2 earlier b ci groups table,
  host_ok env -> host_text env -> o_output_type o = OutJSON ->
  traffic_from p gs0 (gs1 ++ [(now, g, w)]) ->
  never_encrypted (items_of (gs0 ++ gs1 ++ [(now, g, w)])) ->
  items_of (gs1 ++ [(now, g, w)]) = l1 ++ l2 -> tmc_started l1 ->
  last_table (items_of gs1) table -> table <> 0 -> db_ltn (td_locdb (env_tmc env) table) = table ->
  message_ok ms -> sent_in ms groups -> length groups = 3%nat \/ length groups = 4%nat -> in_second_group (ms_fields ms) fs1 ->
  multi_groups l2 = earlier ++ b :: map (pair ci) groups -> fst b <> ci \/ last_of_message (fst (snd b)) ->
  multi_groups (app_items (g, w)) <> [] ->
  run_groups env o (Channel_new o w0) (gs0 ++ gs1 ++ [(now, g, w)]) = Ok (c, out) ->
  exists out' line, out = out' ++ [Some line] /\ shows_place (env_float env) line (td_locdb (env_tmc env) table) (with_fields ms fs1).
Proof.
  intros env o w0 gs0 gs1 now g w c out p ms fs1 l1 l2 earlier b ci groups table H HT OJ T Ne El St Lt N0 Et Mok Sn Ln F1 Em Bd Nm E.
  destruct (multi_shown_fields env o H HT OJ false w0 gs0 gs1 now g w c out p ms fs1 l1 l2 earlier b ci groups T El) as (out' & line & Eo & Sc & Sl & _); try assumption.
  { split; [apply enc_never; exact Ne|]. split; [intros _; exact St|discriminate]. }
  { right. split; assumption. }
  exists out', line. split; [exact Eo|]. destruct (Sl eq_refl) as (_ & _ & L3). apply L3; assumption.
Qed.
Print Assumptions C46_places_three_and_four_groups.

Definition traffic_final (gs : list (Z * Group * N)) : Channel * list (option bytes) :=
  match run_groups traffic_host Options_default (Channel_new Options_default 0) gs with
  | Ok x => x
  | _ => (Channel_new Options_default 0, [])
  end.
Lemma numbers_shown : forall line path l v, shows_numbers line path l -> l <> [] -> line_at path line = Some v -> numbers v l.
Proof. intros line path l v S N E. unfold shows_numbers in S. destruct l; [congruence|]. destruct S as (v' & S & Nu). unfold says in S. rewrite E in S. injection S as <-. exact Nu. Qed.
Ltac not_all jam groups := intros C; specialize (C traffic_host Options_default 0 ps_groups (before_last (with_groups [plain_service] groups)) (20 * sec)%Z
    (the_last (with_groups [plain_service] groups)) 0
    (fst (traffic_final (ps_groups ++ before_last (with_groups [plain_service] groups) ++ [((20 * sec)%Z, the_last (with_groups [plain_service] groups), 0)])))
    (snd (traffic_final (ps_groups ++ before_last (with_groups [plain_service] groups) ++ [((20 * sec)%Z, the_last (with_groups [plain_service] groups), 0)])))
    0x2204 jam [Announced type_8A 0xCD46 0x0040]
    (skipn 1 (items_of (before_last (with_groups [plain_service] groups) ++ [((20 * sec)%Z, the_last (with_groups [plain_service] groups), 0)])))
    [] (3, (0xD065, 0x0064)) 5 groups (proj1 traffic_host_meets) (proj2 traffic_host_meets) eq_refl).
Theorem C43_three_groups_refuted : ~ C43_claim 3.
Proof.
  not_all jam_3 groups_3.
  specialize (C ltac:(meet) ltac:(plainly) ltac:(vm_compute; reflexivity)).
  specialize (C ltac:(exists type_8A, 0xCD46, 0x0040; split; [left; reflexivity|split; reflexivity]) ltac:(field_cases) ltac:(in_order 26%nat) eq_refl).
  specialize (C ltac:(vm_compute; reflexivity) ltac:(left; discriminate) ltac:(discriminate) ltac:(vm_compute; reflexivity)).
  destruct C as (out' & line & Eo & (S & _) & _).
  apply (f_equal (fun o => last o None)) in Eo. rewrite last_last in Eo. vm_compute in Eo. injection Eo as <-.
  apply numbers_shown with (v := VArr [VNum (bs "101"); VNum (bs "201")]) in S; [|discriminate|vm_compute; reflexivity].
  destruct S as (vs & Ev & F2). injection Ev as <-. inversion F2 as [|? ? ? ? _ F3]; inversion F3 as [|? ? ? ? _ F4]; inversion F4.
Qed.
Print Assumptions C43_three_groups_refuted.
(* The same two messages meet the hypotheses of C43_three_and_four_groups *)
Example C43_case : (sent_in jam_3 groups_3 /\ in_second_group (ms_fields jam_3) [(9, 201)]) /\
  sent_in jam_4 groups_4 /\ in_second_group (ms_fields jam_4) [(9, 201)].
Proof.
  split; (split; [first [in_order 26%nat|in_order 30%nat]|]); (split; [vm_compute; lia|]); eexists; (split; [reflexivity|]); vm_compute; lia.
Qed.
Theorem C43_four_groups_refuted : ~ C43_claim 4.
Proof.
  not_all jam_4 groups_4.
  specialize (C ltac:(meet) ltac:(plainly) ltac:(vm_compute; reflexivity)).
  specialize (C ltac:(exists type_8A, 0xCD46, 0x0040; split; [left; reflexivity|split; reflexivity]) ltac:(field_cases) ltac:(in_order 30%nat) eq_refl).
  specialize (C ltac:(vm_compute; reflexivity) ltac:(left; discriminate) ltac:(discriminate) ltac:(vm_compute; reflexivity)).
  destruct C as (out' & line & Eo & (S & _) & _).
  apply (f_equal (fun o => last o None)) in Eo. rewrite last_last in Eo. vm_compute in Eo. injection Eo as <-.
  apply numbers_shown with (v := VArr [VNum (bs "101"); VNum (bs "201")]) in S; [|discriminate|vm_compute; reflexivity].
  destruct S as (vs & Ev & F2). injection Ev as <-. inversion F2 as [|? ? ? ? _ F3]; inversion F3 as [|? ? ? ? _ F4]; inversion F4.
Qed.
Print Assumptions C43_four_groups_refuted.

(* --- C116 --- *)
(* Two groups of a message of five groups, and then all of one of three groups with the same continuity
   index: it is shown with the field in its second group, and nothing of the other. *)
Example C116_case : let all := [plain_service] ++ sending 5 (firstn 3 groups_5) ++ sending 5 groups_3 in
  let gs := before_last all ++ [((20 * sec)%Z, the_last all, 0)] in
  traffic_from 0x2204 ps_groups gs /\ never_encrypted (items_of (ps_groups ++ gs)) /\
  (exists l1 l2, items_of gs = l1 ++ l2 /\ tmc_started l1 /\ multi_groups l2 = map (pair 5) (firstn 3 groups_5) ++ map (pair 5) groups_3) /\
  message_ok jam_3 /\ sent_in jam_3 groups_3 /\ multi_groups (app_items (the_last all, 0)) <> [] /\
  exists line, traffic_last (ps_groups ++ gs) = Some line /\ says line (msg "event_codes") (VArr [VNum (bs "101"); VNum (bs "201")]) /\
    line_at (msg "speed_limit") line = None.
Proof.
  cbv zeta. split; [meet|]. split; [plainly|].
  split; [exists [Announced type_8A 0xCD46 0x0040]; eexists; split; [vm_compute; reflexivity|split; [exists type_8A, 0xCD46, 0x0040; split; [left; reflexivity|split; reflexivity]|vm_compute; reflexivity]]|].
  split; [field_cases|]. split; [in_order 26%nat|]. split; [discriminate|].
  eexists. split; [vm_compute; reflexivity|]. split; vm_compute; reflexivity.
Qed.
(* If one of its groups is lost, however, the group of the other message in that place is used instead:
   of the first message of five groups three are received, of the second one all but the third.  It is
   shown with the speed limit of the first one. *)
Definition jam_5' : tmc_message := mkTmcMessage true 2 101 200 [(9, 203); (6, 21); (7, 40); (1, 1)].
Definition groups_5' : list (N * N) := [(0xD065, 0x00C8); (0x7919, 0x6C2A); (0x2E50, 0x2400); (0x1000, 0x0000); (0x0000, 0x0000)].
Definition with_loss : list Group := [plain_service] ++ sending 5 (firstn 3 groups_5) ++ sending 5 (firstn 2 groups_5' ++ skipn 3 groups_5').
Theorem C116_lost_group_refuted : exists gs c out line,
  Forall received_group gs /\ never_encrypted (items_of gs) /\
  message_ok jam_5 /\ sent_in jam_5 groups_5 /\ message_ok jam_5' /\ sent_in jam_5' groups_5' /\
  multi_groups (items_of gs) = map (pair 5) (firstn 3 groups_5) ++ map (pair 5) (firstn 2 groups_5' ++ skipn 3 groups_5') /\
  run_groups plain_host Options_default (Channel_new Options_default 0) gs = Ok (c, out ++ [Some line]) /\
  shows_number line "location" (Some (ms_location jam_5')) /\ last_of 3 (ms_fields jam_5') = None /\
  last_of 3 (ms_fields jam_5) = Some 10 /\ shows_quantity line "speed_limit" [] (Some 50) (bs " km/h").
Proof.
  exists (ps_groups ++ at_times 11 with_loss), (fst (final Options_default (ps_groups ++ at_times 11 with_loss))), (snd (final Options_default (ps_groups ++ at_times 11 with_loss))).
  exists (the_line Options_default (ps_groups ++ at_times 11 with_loss)).
  split; [repeat constructor; reflexivity|]. split; [plainly|].
  split; [field_cases|]. split; [in_order 30%nat|]. split; [field_cases|]. split; [in_order 66%nat|].
  split; [vm_compute; reflexivity|]. split; [vm_compute; reflexivity|].
  split; [exists (bs "200"); split; vm_compute; reflexivity|]. split; [reflexivity|]. split; [reflexivity|].
  exists (bs "50"). split; vm_compute; reflexivity.
Qed.
Print Assumptions C116_lost_group_refuted.

(* --- C44: why all system information has to say that the service is encrypted --- *)
(* The first group of a message is received while the service is not encrypted.  Then the service becomes
   encrypted, and a whole message with the same continuity index is received: its location is shown as if
   it were not encrypted, although no key is known. *)
Definition becomes_encrypted : list Group :=
  [plain_service; rt2 0x8405 0xD065 0x0064; rt2 0x3410 0x0000 0xCD46; rt2 0x8400 0x0029 0x0400] ++ sending 5 secret_2.
Theorem C44_after_becoming_encrypted_refuted : exists gs1 gs2 c out line,
  Forall received_group (gs1 ++ gs2) /\ always_encrypted (items_of gs2) /\ (exists key, last_key (items_of gs2) key) /\
  (forall number, td_key (env_tmc plain_host) number = None) /\
  user_groups (items_of gs2) = [(0, 0x0029, 0x0400); (5, 0xD065, 0x80F0); (5, 0x4353, 0x0A00)] /\
  run_groups plain_host Options_default (Channel_new Options_default 0) (gs1 ++ gs2) = Ok (c, out ++ [Some line]) /\
  shows_number line "location" (Some 0x80F0).
Proof.
  exists (ps_groups ++ at_times 11 (firstn 2 becomes_encrypted)), (at_times 13 (skipn 2 becomes_encrypted)).
  exists (fst (final Options_default (ps_groups ++ at_times 11 becomes_encrypted))), (snd (final Options_default (ps_groups ++ at_times 11 becomes_encrypted))).
  exists (the_line Options_default (ps_groups ++ at_times 11 becomes_encrypted)).
  split; [repeat constructor; reflexivity|]. split; [all_encrypted|].
  split.
  { exists 9, [Announced type_8A 0xCD46 0], (AppData type_8A 0x8400 0x0029 0x0400). eexists. exists 0x29, 0x400. split; [vm_compute; reflexivity|].
    split; [exists type_8A, 0xCD46, 0; split; [left; reflexivity|split; reflexivity]|]. split; [reflexivity|]. split; [reflexivity|].
    intros x X (y & z & Y); vm_compute in X. repeat (destruct X as [<-|X]; [vm_compute in Y; destruct Y as [Y|[]]; discriminate Y|]). destruct X. }
  split; [reflexivity|]. split; [vm_compute; reflexivity|]. split; [vm_compute; reflexivity|].
  exists (bs "33008"). split; vm_compute; reflexivity.
Qed.
Print Assumptions C44_after_becoming_encrypted_refuted.
