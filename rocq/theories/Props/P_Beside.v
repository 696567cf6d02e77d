(* C115: RadioText of a station that also sends RadioText Plus. *)
From Verif.Model Require Import Base Util Group Options Tables Json RdsString Tmc Station Channel.
From Verif.Spec Require Import Unicode JsonText Session Identity History Quality Texts Apps Plus Host Cases.
From Verif.Proofs Require Import Tac Numerals JsonP TextP CleanP Utf8P UpdateP SessionP ChannelP RtP HostP PartsP PlusP BesideP.
From Verif.Props Require Import P_Channel P_Radiotext P_Parts P_Plus.

Local Open Scope string_scope.
Local Open Scope N_scope.
Local Open Scope list_scope.

(* --- C115 --- *)
(* gs0: any groups after which station p is confirmed.  ga: further groups, which assign RadioText Plus to a group type.
   g1: a RadioText Plus group.  gb: groups of any kind; [same]: the RadioText Plus groups among them tell of the same item
   as g1.  Parts of a RadioText message are among gb in any order, repeated, some of them lost; with g, itself such a
   part, a complete text l has been received since g1.  Then the line of g shows it. *)
Definition C115_claim (same : Prop) (gs0 ga : list (Z * Group * N)) (now1 : Z) (g1 : Group) (gb : list (Z * Group * N)) (now : Z) (g : Group) : Prop :=
  forall env o w0 c out p f v l,
  host_ok env -> host_text env -> o_output_type o = OutJSON ->
  let gs := (ga ++ (now1, g1, 0) :: gb) ++ [(now, g, 0)] in
  Forall received_group (gs0 ++ gs) -> p <> 0 -> three p (pis gs0) -> Forall (stays p) gs ->
  Forall (fun x => matters (snd (fst x), snd x) = true -> carried_pi x = Some p) gs ->
  app_group (g1, 0) = true -> assigned_last (g_type g1) (flat_map announcement (groups_of ga)) rtplus ->
  same -> rt_segment (g, 0) <> [] ->
  uniform f v (flat_map rt_segment (groups_of (gb ++ [(now, g, 0)]))) ->
  complete_text (rt_size v) (part_writes (flat_map rt_segment (groups_of (gb ++ [(now, g, 0)])))) l ->
  run_groups env o (Channel_new o w0) (gs0 ++ gs) = Ok (c, out) ->
  exists out' line s, out = out' ++ [Some line] /\ says line ["radiotext"] (VStr s) /\ trimmed (rds_text l) s.
Theorem C115_text_beside_plus : forall gs0 ga now1 g1 gb now g,
  C115_claim (forall x, In x (groups_of gb) -> of_plus (groups_of (gs0 ++ (ga ++ (now1, g1, 0) :: gb) ++ [(now, g, 0)])) x -> item_bits (fst x) = item_bits g1)
    gs0 ga now1 g1 gb now g.
Proof. unfold C115_claim. intros. eapply text_beside; eassumption. Qed.
Print Assumptions C115_text_beside_plus.

(* "Hello" in two parts, each followed by a RadioText Plus group; [item] is the block 2 of the second of these *)
Definition text_and_plus (item : N) : list (Z * Group * N) :=
  at_times 13 [rt2 0x2411 0x6F0D 0x2020; rt2 0x2410 0x4865 0x6C6C; rt2 item 0x0000 0x0000].
Definition text_end : Group := rt2 0x2411 0x6F0D 0x2020.
Definition hello : list N := [0x48; 0x65; 0x6C; 0x6C; 0x6F; 0x0D].
Lemma hello_complete : forall item t, item = 0xB418 \/ item = 0xB408 -> complete_text 64 (part_writes (flat_map rt_segment (groups_of (text_and_plus item ++ [(t, text_end, 0)])))) hello.
Proof.
  intros item t H. split; [split|right; exists [0x48; 0x65; 0x6C; 0x6C; 0x6F]; split; [reflexivity|cbn; intuition discriminate]].
  - set (ws := part_writes _). assert (E : ws = [(4, 0x6F); (5, 0x0D); (6, 0x20); (7, 0x20); (0, 0x48); (1, 0x65); (2, 0x6C); (3, 0x6C); (4, 0x6F); (5, 0x0D); (6, 0x20); (7, 0x20)]).
    { destruct H as [-> | ->]; vm_compute; reflexivity. }
    rewrite E. apply (sequence_is 6 _ [(4, 0x6F); (5, 0x0D); (6, 0x20); (7, 0x20)] 0x48 _ eq_refl). reflexivity.
  - intros i b Hi. do 6 (destruct i as [|i]; [cbn in Hi; injection Hi as <-; destruct H as [-> | ->]; vm_compute; reflexivity|]). destruct i; discriminate Hi.
Qed.
Lemma hello_meets : forall item, item = 0xB418 \/ item = 0xB408 ->
  let gs := (assigning ++ ((12 * sec)%Z, plus_begins, 0) :: text_and_plus item) ++ [((19 * sec)%Z, text_end, 0)] in
  Forall received_group (ps_groups ++ gs) /\ three 0x2204 (pis ps_groups) /\ Forall (stays 0x2204) gs /\
  Forall (fun x => matters (snd (fst x), snd x) = true -> carried_pi x = Some 0x2204) gs /\
  app_group (plus_begins, 0) = true /\ assigned_last (g_type plus_begins) (flat_map announcement (groups_of assigning)) rtplus /\
  rt_segment (text_end, 0) <> [] /\ uniform true VA (flat_map rt_segment (groups_of (text_and_plus item ++ [((19 * sec)%Z, text_end, 0)]))).
Proof.
  intros item [-> | ->]; cbv zeta.
  all: split; [apply (Forall_by _ receivedb _ receivedb_ok); vm_compute; reflexivity|]; split; [exists []; reflexivity|];
    split; [apply (Forall_by _ (pi_is 0x2204)); [intros ? ?; right; apply pi_is_ok; assumption|vm_compute; reflexivity]|];
    split; [apply (Forall_by _ (pi_is 0x2204)); [intros ? ? _; apply pi_is_ok; assumption|vm_compute; reflexivity]|];
    split; [reflexivity|]; split; [exists [], []; split; [reflexivity|intros b []]|]; split; [discriminate|]; vm_compute; repeat constructor.
Qed.
(* hello_meets and hello_complete: the other hypotheses are met *)
Example C115_case : let gs := (assigning ++ ((12 * sec)%Z, plus_begins, 0) :: text_and_plus 0xB418) ++ [((19 * sec)%Z, text_end, 0)] in
  (forall x, In x (groups_of (text_and_plus 0xB418)) -> of_plus (groups_of (ps_groups ++ gs)) x -> item_bits (fst x) = item_bits plus_begins) /\
  exists line, last_line Options_default (ps_groups ++ gs) = Some line /\ line_at ["radiotext"] line = Some (VStr (bs "Hello")).
Proof.
  cbv zeta. split.
  - intros x X [A _]. vm_compute in X. repeat (destruct X as [<-|X]; [first [discriminate A | reflexivity]|]). destruct X.
  - eexists. split; [vm_compute; reflexivity|]. vm_compute. reflexivity.
Qed.

Lemma plain_host_text : host_text plain_host.
Proof.
  split; [apply valid_is_utf8; reflexivity|]. split.
  - intros f t s X. injection X as <-. apply valid_is_utf8. apply (num_small (dec_string_Z t)), dec_string_Z_chars.
  - repeat split; intros; discriminate.
Qed.

(* Not so if a new item begins in between: the text is forgotten. *)
Theorem C115_new_item_refuted : ~ forall gs0 ga now1 g1 gb now g, C115_claim True gs0 ga now1 g1 gb now g.
Proof.
  intros C. destruct (hello_meets 0xB408 (or_intror eq_refl)) as (M1 & M2 & M3 & M4 & M5 & M6 & M7 & M8).
  destruct (run_groups plain_host Options_default (Channel_new Options_default 0) (ps_groups ++ (assigning ++ ((12 * sec)%Z, plus_begins, 0) :: text_and_plus 0xB408) ++ [((19 * sec)%Z, text_end, 0)])) as [[c out]| |] eqn:E;
    [|vm_compute in E; discriminate E|vm_compute in E; discriminate E].
  assert (L : exists line, last out None = Some line /\ line_at ["radiotext"] line = None).
  { apply (f_equal (fun r => match r with Ok (_, o) => o | _ => [] end)) in E. cbv beta iota in E. rewrite <- E. eexists. split; [vm_compute; reflexivity|]. vm_compute. reflexivity. }
  destruct (C ps_groups assigning (12 * sec)%Z plus_begins (text_and_plus 0xB408) (19 * sec)%Z text_end plain_host Options_default 0%N c out 0x2204 true VA hello plain_host_ok plain_host_text eq_refl M1 ltac:(discriminate) M2 M3 M4 M5 M6 I M7 M8
    (hello_complete _ _ (or_intror eq_refl)) E) as (out' & line & s & -> & S & _).
  destruct L as (line' & L1 & L2). rewrite last_last in L1. injection L1 as <-. unfold says in S. rewrite L2 in S. discriminate S.
Qed.
Print Assumptions C115_new_item_refuted.
