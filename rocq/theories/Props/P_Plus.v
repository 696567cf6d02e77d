(* C29: RadioText Plus. *)
From Verif.Model Require Import Base Util Group Options Tables Json RdsString Tmc Station Channel.
From Verif.Spec Require Import Unicode JsonText Session Identity History Quality Texts Apps Plus Host Cases.
From Verif.Proofs Require Import Tac Numerals JsonP TextP UpdateP SessionP ChannelP RtP HostP PlusP PlusTrueP.
From Verif.Props Require Import P_Channel P_Radiotext P_Files.

Local Open Scope string_scope.
Local Open Scope N_scope.
Local Open Scope list_scope.

(* --- C29 --- *)
(* gs0: groups until the program has settled on station p.  ga: further groups, which assign RadioText Plus
   to a group type.  g1: the first RadioText Plus group of an item.  gb: groups of any kind, among them all
   characters of a text l in order, then any of them again; RadioText Plus groups among them are of the same
   item.  g: another RadioText Plus group of that item, with the tags t1 and t2. *)
Definition tags_sent (p : N) (gs0 ga : list (Z * Group * N)) (now1 : Z) (g1 : Group) (gb : list (Z * Group * N)) (now : Z) (g : Group) (l : list N) (t1 t2 : Tag) : Prop :=
  let gs := (ga ++ (now1, g1, 0) :: gb) ++ [(now, g, 0)] in
  Forall received_group (gs0 ++ gs) /\ p <> 0 /\ three p (pis gs0) /\ Forall (stays p) gs /\
  Forall (fun x => matters (snd (fst x), snd x) = true -> carried_pi x = Some p) gs /\
  app_group (g1, 0) = true /\ assigned_last (g_type g1) (flat_map announcement (groups_of ga)) rtplus /\
  app_group (g, 0) = true /\ assigned_last (g_type g) (flat_map announcement (groups_of gs)) rtplus /\
  (forall x, In x (groups_of gb ++ [(g, 0)]) -> of_plus (groups_of (gs0 ++ gs)) x -> item_bits (fst x) = item_bits g1) /\
  (exists flag v again, uniform flag v (flat_map rt_segment (groups_of gb)) /\ part_writes (flat_map rt_segment (groups_of gb)) = place 0 l ++ again /\
     Forall (agrees l) again /\ ended (rt_size v) l) /\
  blk_is_received (g_b3 g) = true /\ blk_is_received (g_b4 g) = true /\
  (blk_data (g_b2 g) mod 32, blk_data (g_b3 g), blk_data (g_b4 g)) = tag_words (item_bits g1) t1 t2 /\ tags_ok t1 t2.

(* The group is shown with the characters it tags. *)
Theorem C29_tags_are_the_tagged_characters : forall env o w0 p gs0 ga now1 g1 gb now g l t1 t2 c out,
  host_ok env -> host_text env -> o_output_type o = OutJSON ->
  tags_sent p gs0 ga now1 g1 gb now g l t1 t2 ->
  Forall (fun t => real t = true -> fits l t) [t1; t2] ->
  run_groups env o (Channel_new o w0) (gs0 ++ (ga ++ (now1, g1, 0) :: gb) ++ [(now, g, 0)]) = Ok (c, out) ->
  exists out' line vs, out = out' ++ [Some line] /\ Forall2 (shows_tag l) (filter real [t1; t2]) vs /\
    line_at ["radiotext_plus"; "tags"] line = match vs with [] => None | _ => Some (VArr vs) end /\
    says line ["radiotext_plus"; "item_running"] (VBool (snd (item_bits g1))) /\
    says line ["radiotext_plus"; "item_toggle"] (VNum (if fst (item_bits g1) then bs "1" else bs "0")).
Proof.
  intros env o w0 p gs0 ga now1 g1 gb now g l t1 t2 c out H HT OJ (F & Np & T3 & S & P & A1 & L1 & A & L & Sm & (f & v & again & Un & Wr & Ag & En) & R3 & R4 & Tw & Tok) Fs E.
  inversion Fs as [|? ? F1 Fs']; subst. inversion Fs' as [|? ? F2 _]; subst.
  destruct (tags_shown env o H HT OJ w0 gs0 ga now1 g1 gb now g c out p f v l again t1 t2 F Np T3 S P A1 L1 A L Sm Un Wr Ag En R3 R4 Tw Tok F1 F2 E) as (out' & line & -> & J1 & J2 & J3).
  exists out', line, (map (value_of (env_float env)) (entries l t1 ++ entries l t2)). split; [reflexivity|]. split; [|split; [|split]].
  - assert (X : forall t, shows_tag l t (value_of (env_float env) (entry l t))).
    { intros t. exists (rtrim (rds_text (tagged l t))). split; [rewrite <- content_same; reflexivity|]. apply rtrim_trimmed. }
    unfold entries. cbn [filter]. destruct (real t1), (real t2); cbn [app map]; repeat constructor; apply X.
  - rewrite J1. destruct (entries l t1 ++ entries l t2); reflexivity.
  - exact J2.
  - unfold says in *. rewrite J3. destruct (fst (item_bits g1)); reflexivity.
Qed.
Print Assumptions C29_tags_are_the_tagged_characters.

(* Groups of four characters of a text *)
Fixpoint text_groups (i : N) (ws : list (N * N)) : list Group :=
  match ws with [] => [] | (a, b) :: r => rt2 (0x2400 + i) a b :: text_groups (i + 1) r end.
Definition assigning : list (Z * Group * N) := at_times 11 [rt2 0x3416 0x0000 0x4BD7].
Definition plus_begins : Group := rt2 0xB418 0x0000 0x0000.

Lemma Forall_by {A} (P : A -> Prop) (f : A -> bool) (l : list A) : (forall x, f x = true -> P x) -> forallb f l = true -> Forall P l.
Proof. intros H E. rewrite Forall_forall. rewrite forallb_forall in E. intros x X. apply H, E, X. Qed.
Definition receivedb (x : Z * Group * N) : bool :=
  let '(_, g, _) := x in
  negb (g_has_bler g) && ((blk_data (g_b1 g) <? 65536) && ((blk_data (g_b2 g) <? 65536) && ((blk_data (g_b3 g) <? 65536) && (blk_data (g_b4 g) <? 65536)))).
Lemma receivedb_ok x : receivedb x = true -> received_group x.
Proof.
  destruct x as [[t g] s]. unfold receivedb, received_group. rewrite !andb_true_iff, !N.ltb_lt, negb_true_iff. tauto.
Qed.
Definition pi_is (p : N) (x : Z * Group * N) : bool := match carried_pi x with Some q => q =? p | None => false end.
Lemma pi_is_ok p x : pi_is p x = true -> carried_pi x = Some p.
Proof. unfold pi_is. destruct (carried_pi x); [|discriminate]. rewrite N.eqb_eq. congruence. Qed.

Ltac sent := repeat match goal with
  | |- _ /\ _ => split
  | |- tags_ok _ _ => unfold tags_ok; cbn
  | |- Forall received_group _ => apply (Forall_by _ receivedb _ receivedb_ok); vm_compute; reflexivity
  | |- three _ _ => exists []; reflexivity
  | |- Forall (stays ?p) _ => apply (Forall_by _ (pi_is p)); [intros ? ?; right; apply pi_is_ok; assumption|vm_compute; reflexivity]
  | |- Forall (fun x => matters _ = true -> _ = Some ?p) _ => apply (Forall_by _ (pi_is p)); [intros ? ? _; apply pi_is_ok; assumption|vm_compute; reflexivity]
  | |- assigned_last _ _ _ => exists [], []; split; [reflexivity|intros b []]
  | |- forall x, In x _ -> of_plus _ x -> _ => let x := fresh in let X := fresh in let A := fresh in intros x X [A _]; vm_compute in X; repeat (destruct X as [<-|X]; [first [discriminate A | reflexivity]|]); destruct X
  | |- _ < _ => reflexivity
  | |- _ <= _ => discriminate
  | |- _ <> _ => discriminate
  | |- _ = _ => vm_compute; reflexivity
  end.
(* "Ab" e-acute "a Sos" and the end mark *)
Definition abea : list N := [0x41; 0x62; 0x82; 0x61; 0x20; 0x53; 0x6F; 0x73; 0x0D].
Definition abea_groups : list (Z * Group * N) :=
  at_times 13 (text_groups 0 [(0x4162, 0x8261); (0x2053, 0x6F73); (0x0D20, 0x2020)] ++ [plus_begins; rt2 0x2400 0x4162 0x8261]).
(* "Caf" e-acute " Sos" and the end mark *)
Definition cafe : list N := [0x43; 0x61; 0x66; 0x82; 0x20; 0x53; 0x6F; 0x73; 0x0D].
Definition cafe_groups : list (Z * Group * N) :=
  at_times 13 (text_groups 0 [(0x4361, 0x6682); (0x2053, 0x6F73); (0x0D20, 0x2020)]).
(* 64 times "a", without an end mark *)
Definition long_text : list N := Eval vm_compute in repeat 0x61 64.
Definition long_groups : list (Z * Group * N) := Eval vm_compute in at_times 13 (text_groups 0 (repeat (0x6161, 0x6161) 16)).
Definition item_tags (b3 b4 : N) : Group := rt2 0xB418 b3 b4.

Ltac text_sent w := exists false; exists VA; exists w; split; [repeat constructor; reflexivity|]; split; [vm_compute; reflexivity|].

Example C29_case : let g := item_tags 0x8006 0x08A2 in let t1 := mkTag 4 0 4 in let t2 := mkTag 1 5 3 in
  tags_sent 0x2204 ps_groups assigning (12 * sec)%Z plus_begins abea_groups (30 * sec)%Z g abea t1 t2 /\ fits abea t1 /\ fits abea t2 /\
  exists line, last_line Options_default (ps_groups ++ (assigning ++ ((12 * sec)%Z, plus_begins, 0) :: abea_groups) ++ [((30 * sec)%Z, g, 0)]) = Some line /\
    line_at ["radiotext_plus"; "tags"] line = Some (VArr [
      VObj [(bs "content-type", VStr (bs "item.artist")); (bs "data", VStr [0x41; 0x62; 0xC3; 0xA9; 0x61])];
      VObj [(bs "content-type", VStr (bs "item.title")); (bs "data", VStr (bs "Sos"))]]).
Proof.
  intros g t1 t2. split; [|split; [|split]].
  - unfold tags_sent. cbv zeta. sent.
    + text_sent [(9, 0x20); (10, 0x20); (11, 0x20); (0, 0x41); (1, 0x62); (2, 0x82); (3, 0x61)]. split.
      * repeat (constructor; [first [right; reflexivity | left; discriminate]|]). constructor.
      * left. exists (removelast abea). split; [reflexivity|]. cbn. intuition discriminate.
  - split; [reflexivity|]. split; [left; reflexivity|exists 0x61; split; reflexivity].
  - split; [reflexivity|]. split; [right; exists 0x20; split; reflexivity|exists 0x73; split; reflexivity].
  - eexists. split; [vm_compute; reflexivity|]. vm_compute. reflexivity.
Qed.

(* The characters at the edges of the tag matter: a tag on "Caf" e-acute is not shown at all. *)
Theorem C29_accented_edge_refuted : exists p gs0 ga now1 g1 gb now g l t1 t2 line,
  tags_sent p gs0 ga now1 g1 gb now g l t1 t2 /\ start t1 + chars t1 < N.of_nat (length l) /\ start t1 = 0 /\ real t1 = true /\ real t2 = false /\
  last_line Options_default (gs0 ++ (ga ++ (now1, g1, 0) :: gb) ++ [(now, g, 0)]) = Some line /\ line_at ["radiotext_plus"] line = None /\ line_at ["pi"] line = None.
Proof.
  exists 0x2204, ps_groups, assigning, (12 * sec)%Z, plus_begins, cafe_groups, (30 * sec)%Z, (item_tags 0x8006 0), cafe, (mkTag 4 0 4), (mkTag 0 0 1).
  eexists. split; [|do 4 (split; [reflexivity|]); split; [vm_compute; reflexivity|]; split; vm_compute; reflexivity].
  unfold tags_sent. cbv zeta. sent. text_sent [(9, 0x20); (10, 0x20); (11, 0x20)]. split.
  - repeat (constructor; [left; discriminate|]). constructor.
  - left. exists (removelast cafe). split; [reflexivity|]. cbn. intuition discriminate.
Qed.
Print Assumptions C29_accented_edge_refuted.

(* The last character of a text as long as a text can be cannot be tagged. *)
Theorem C29_end_of_full_text_refuted : exists p gs0 ga now1 g1 gb now g l t1 t2 line,
  tags_sent p gs0 ga now1 g1 gb now g l t1 t2 /\ start t1 + chars t1 = N.of_nat (length l) /\ Forall (fun b => rds_char (visible b) < 0x80) l /\ real t1 = true /\ real t2 = false /\
  last_line Options_default (gs0 ++ (ga ++ (now1, g1, 0) :: gb) ++ [(now, g, 0)]) = Some line /\
  says line ["radiotext_plus"; "item_running"] (VBool true) /\ line_at ["radiotext_plus"; "tags"] line = None.
Proof.
  exists 0x2204, ps_groups, assigning, (12 * sec)%Z, plus_begins, long_groups, (30 * sec)%Z, (item_tags 0x9E06 0), long_text, (mkTag 4 60 4), (mkTag 0 0 1).
  eexists. split; [|split; [reflexivity|]; split; [repeat constructor|]; do 2 (split; [reflexivity|]); split; [vm_compute; reflexivity|]; split; vm_compute; reflexivity].
  unfold tags_sent. cbv zeta. sent. text_sent (@nil (N * N)). split; [constructor|].
  right. split; [reflexivity|]. vm_compute. intuition discriminate.
Qed.
Print Assumptions C29_end_of_full_text_refuted.

(* Whatever is received, in any order and with any losses: what is shown is true.  The tags shown are tags
   of this group, in their order; each is shown with the characters it tags of a text l that had been
   received completely. *)
Theorem C29_tags_shown_are_true : forall env o w0 gs now g w c out line v,
  host_ok env -> o_output_type o = OutJSON -> Forall received_group (gs ++ [(now, g, w)]) ->
  run_groups env o (Channel_new o w0) (gs ++ [(now, g, w)]) = Ok (c, out ++ [Some line]) ->
  says line ["radiotext_plus"; "tags"] v ->
  let ps := flat_map rt_segment (decoded_in (gs ++ [(now, g, w)]) (out ++ [Some line])) in
  steady ps ->
  exists l keep vs, held ps l /\ v = VArr vs /\ Forall2 (shows_tag l) (filter keep (tags_in g)) vs /\
    Forall (fun t => real t = true /\ fits l t) (filter keep (tags_in g)).
Proof. exact tags_true. Qed.
Print Assumptions C29_tags_shown_are_true.

(* A new item: g1 is a RadioText Plus group of the old one, g2 the first of the new one.  From g2 on, only
   a text that was received completely after g2 is quoted. *)
Definition item_changes (p : N) (gs0 ga : list (Z * Group * N)) (now1 : Z) (g1 : Group) (gm : list (Z * Group * N)) (now2 : Z) (g2 : Group) (gb : list (Z * Group * N)) : Prop :=
  let gs := ga ++ (now1, g1, 0) :: gm ++ (now2, g2, 0) :: gb in
  Forall received_group (gs0 ++ gs) /\ p <> 0 /\ three p (pis gs0) /\ Forall (stays p) gs /\
  Forall (fun x => matters (snd (fst x), snd x) = true -> carried_pi x = Some p) gs /\
  app_group (g1, 0) = true /\ assigned_last (g_type g1) (flat_map announcement (groups_of ga)) rtplus /\
  app_group (g2, 0) = true /\ assigned_last (g_type g2) (flat_map announcement (groups_of (ga ++ (now1, g1, 0) :: gm))) rtplus /\
  (forall x, In x (groups_of gm) -> of_plus (groups_of (gs0 ++ gs)) x -> item_bits (fst x) = item_bits g1) /\
  item_bits g2 <> item_bits g1.

Theorem C29_new_item_new_text : forall env o w0 p gs0 ga now1 g1 gm now2 g2 gb gs1 now g w c out line v,
  host_ok env -> host_text env -> o_output_type o = OutJSON ->
  item_changes p gs0 ga now1 g1 gm now2 g2 gb ->
  let gs := ga ++ (now1, g1, 0) :: gm ++ (now2, g2, 0) :: gb in
  gs = gs1 ++ [(now, g, w)] -> carried_pi (now, g, w) = Some p ->
  run_groups env o (Channel_new o w0) (gs0 ++ gs) = Ok (c, out ++ [Some line]) ->
  says line ["radiotext_plus"; "tags"] v ->
  steady (flat_map rt_segment (decoded_in (gs0 ++ gs) (out ++ [Some line]))) ->
  exists l keep vs, held (flat_map rt_segment (groups_of gb)) l /\ v = VArr vs /\ Forall2 (shows_tag l) (filter keep (tags_in g)) vs /\
    Forall (fun t => real t = true /\ fits l t) (filter keep (tags_in g)).
Proof.
  intros env o w0 p gs0 ga now1 g1 gm now2 g2 gb gs1 now g w c out line v H HT OJ (F & Np & T3 & S & P & A1 & L1 & A2 & L2 & Sm & Nb) gs Eg Pg E Sv Sd.
  exact (tags_of_item env o H HT OJ w0 gs0 ga now1 g1 gm now2 g2 gb gs1 now g w c out line v p F Np T3 S P A1 L1 A2 L2 Sm Nb Eg Pg E Sv Sd).
Qed.
Print Assumptions C29_new_item_new_text.

(* In particular the group that begins an item quotes nothing. *)
Corollary nothing_held : forall l, ~ held [] l.
Proof.
  intros l (a & m & f & v & ws & r & E & _ & W & C). symmetry in E. apply app_eq_nil in E. destruct E as [-> ->]. symmetry in W. apply app_eq_nil in W. destruct W as [-> _].
  exact (none_complete _ _ C).
Qed.
Theorem C29_new_item_begins_without_tags : forall env o w0 p gs0 ga now1 g1 gm now2 g2 c out line,
  host_ok env -> host_text env -> o_output_type o = OutJSON ->
  item_changes p gs0 ga now1 g1 gm now2 g2 [] ->
  let gs := ga ++ (now1, g1, 0) :: gm ++ [(now2, g2, 0)] in
  run_groups env o (Channel_new o w0) (gs0 ++ gs) = Ok (c, out ++ [Some line]) ->
  steady (flat_map rt_segment (decoded_in (gs0 ++ gs) (out ++ [Some line]))) ->
  forall v, ~ says line ["radiotext_plus"; "tags"] v.
Proof.
  intros env o w0 p gs0 ga now1 g1 gm now2 g2 c out line H HT OJ I gs E Sd v Sv.
  assert (Eg : gs = (ga ++ (now1, g1, 0) :: gm) ++ [(now2, g2, 0)]) by (unfold gs; rewrite <- app_assoc; reflexivity).
  assert (Pg : carried_pi (now2, g2, 0) = Some p).
  { destruct I as (_ & _ & _ & _ & P & _ & _ & A2 & _). rewrite Forall_forall in P. apply P.
    - apply in_or_app. right. right. apply in_or_app. right. left. reflexivity.
    - unfold matters. cbn [fst snd]. rewrite A2. reflexivity. }
  destruct (C29_new_item_new_text env o w0 p gs0 ga now1 g1 gm now2 g2 [] _ now2 g2 0 c out line v H HT OJ I Eg Pg E Sv Sd) as (l & _ & _ & X & _).
  exact (nothing_held l X).
Qed.
Print Assumptions C29_new_item_begins_without_tags.

(* A song, its tags, then the next song: its first group quotes nothing although it has tags, its second
   quotes the new text. *)
Definition next_item (b3 b4 : N) : Group := rt2 0xB408 b3 b4.
Example C29_item_case :
  let gm := abea_groups ++ [((30 * sec)%Z, item_tags 0x8006 0x08A2, 0)] in
  let next := next_item 0x8006 0x08A2 in
  let gb := cafe_groups ++ [((50 * sec)%Z, next_item 0x0004 0x08A2, 0)] in
  item_changes 0x2204 ps_groups assigning (12 * sec)%Z plus_begins gm (40 * sec)%Z next [] /\
  item_changes 0x2204 ps_groups assigning (12 * sec)%Z plus_begins gm (40 * sec)%Z next gb /\
  (exists line, last_line Options_default (ps_groups ++ assigning ++ ((12 * sec)%Z, plus_begins, 0) :: gm) = Some line /\
    line_at ["radiotext_plus"; "tags"] line = Some (VArr [
      VObj [(bs "content-type", VStr (bs "item.artist")); (bs "data", VStr [0x41; 0x62; 0xC3; 0xA9; 0x61])];
      VObj [(bs "content-type", VStr (bs "item.title")); (bs "data", VStr (bs "Sos"))]])) /\
  (exists line, last_line Options_default (ps_groups ++ assigning ++ ((12 * sec)%Z, plus_begins, 0) :: gm ++ [((40 * sec)%Z, next, 0)]) = Some line /\
    line_at ["radiotext_plus"; "tags"] line = None /\ says line ["radiotext_plus"; "item_running"] (VBool true)) /\
  (exists line, last_line Options_default (ps_groups ++ assigning ++ ((12 * sec)%Z, plus_begins, 0) :: gm ++ ((40 * sec)%Z, next, 0) :: gb) = Some line /\
    line_at ["radiotext_plus"; "tags"] line = Some (VArr [
      VObj [(bs "content-type", VStr (bs "item.title")); (bs "data", VStr (bs "Sos"))]])).
Proof.
  cbv zeta. split; [|split; [|split; [|split]]].
  - unfold item_changes. cbv zeta. sent.
  - unfold item_changes. cbv zeta. sent.
  - eexists. split; [vm_compute; reflexivity|vm_compute; reflexivity].
  - eexists. split; [vm_compute; reflexivity|]. split; vm_compute; reflexivity.
  - eexists. split; [vm_compute; reflexivity|vm_compute; reflexivity].
Qed.
