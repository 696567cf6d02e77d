(* What a channel stores stays within fixed bounds. *)
From Verif.Proofs Require Import Tac Numerals FreqP StringP Schema StationP UpdateP SessionP.
From Verif.Model Require Import Input.
From Verif.Model Require Import Util Group BlockSync Options Tables Freq RdsString Rft Json Tmc Station Channel.
From Verif.Spec Require Import Session Memory.

(* If it returns, the result has the property *)
Definition post {A : Type} (P : A -> Prop) (r : res A) : Prop := match r with Ok a => P a | _ => True end.
Lemma post_ok : forall (A : Type) (P : A -> Prop) a, P a -> post P (Ok a).
Proof. intros A P a H. exact H. Qed.
Lemma post_bind : forall (A B : Type) (Q : A -> Prop) (P : B -> Prop) m f, post Q m -> (forall a, Q a -> post P (f a)) -> post P (bind m f).
Proof. intros A B Q P [a|e|e] f H F; [apply F; exact H|exact I|exact I]. Qed.
Lemma post_any : forall (A : Type) (m : res A), post (fun _ => True) m.
Proof. intros A [a|e|e]; exact I. Qed.
Lemma post_skip : forall (A B : Type) (P : B -> Prop) (m : res A) f, (forall a, post P (f a)) -> post P (bind m f).
Proof. intros A B P m f F. apply (post_bind _ _ (fun _ => True)); [apply post_any|]. intros a _. apply F. Qed.

(* ---- counting ---- *)
Lemma nodup_below : forall l n, Forall (fun k => k < n) l -> count (nodup N.eq_dec l) <= n.
Proof.
  intros l n F. unfold count. assert (L : (length (nodup N.eq_dec l) <= length (nseq 0 (N.to_nat n)))%nat).
  { apply NoDup_incl_length; [apply NoDup_nodup|]. intros x I. apply nodup_In in I. rewrite Forall_forall in F.
    apply nseq_In; [lia|]. specialize (F x I). lia. }
  rewrite nseq_length in L. lia.
Qed.

Lemma total_bound : forall (A : Type) (f : A -> N) l m, Forall (fun x => f x <= m) l -> total (map f l) <= m * count l.
Proof.
  intros A f l m F. unfold count. induction F as [|x l H F IH]; [cbn; lia|].
  cbn [map total fold_right length] in *. unfold total in IH. lia.
Qed.

Lemma map_size_bound : forall (A : Type) (size : A -> N) (m : list (N * A)) n b, Forall (fun p => fst p < n /\ size (snd p) <= b) m ->
  map_size size m <= (1 + b) * n.
Proof.
  intros A size m n b F. unfold map_size.
  assert (V : forall k v, find_code k m = Some v -> size v <= b).
  { clear -F. induction F as [|[k' v'] m [_ H] F IH]; intros k v E; [discriminate E|]. cbn [find_code] in E.
    destruct (k =? k'); [injection E as <-; exact H|exact (IH k v E)]. }
  set (f := fun k => _). etransitivity; [apply (total_bound _ f _ (1 + b))|].
  - apply Forall_forall. intros k _. unfold f. destruct (find_code k m) as [v|] eqn:E; [|lia]. specialize (V k v E). lia.
  - apply N.mul_le_mono_l. apply nodup_below. apply Forall_map. eapply Forall_impl; [|exact F]. intros p [H _]. exact H.
Qed.

(* ---- texts ---- *)
Definition fits (n : nat) (s : RDSString) : Prop := (length (s_data s) <= n)%nat /\ (length (s_last_complete_string s) <= 3 * n)%nat.

Lemma fits_size : forall n s, fits n s -> text_size s <= 5 * N.of_nat n.
Proof. intros n s [A B]. unfold text_size, count. lia. Qed.

Lemma char_length : forall b, (length (getRDSCharString b) <= 3)%nat.
Proof.
  intros b. unfold getRDSCharString. generalize (N.to_nat b). intros k. clear b.
  assert (F : Forall (fun t => (length t <= 3)%nat) codetable_G0).
  { apply Forall_forall. intros t I. assert (C : forallb (fun t => (length t <=? 3)%nat) codetable_G0 = true) by (vm_compute; reflexivity).
    rewrite forallb_forall in C. specialize (C t I). apply Nat.leb_le. exact C. }
  rewrite Forall_forall in F. destruct (nth_in_or_default k codetable_G0 []) as [I|E]; [apply F; exact I|rewrite E; cbn; lia].
Qed.

Lemma getData_length : forall d i sq n, (length (getData_loop d i sq n) <= length d)%nat.
Proof.
  induction d as [|b d IH]; intros i sq [|n]; cbn [getData_loop length]; try lia. specialize (IH (i + 1) sq n). lia.
Qed.

Lemma chars_length : forall l, (length (flat_map getRDSCharString l) <= 3 * length l)%nat.
Proof.
  induction l as [|b l IH]; [cbn; lia|]. cbn [flat_map length]. rewrite app_length. pose proof (char_length b). lia.
Qed.

Lemma str_length : forall ucs2 s t, modest ucs2 -> s_str ucs2 s = Some t -> (length t <= 3 * length (s_data s))%nat.
Proof.
  intros ucs2 s t M E. unfold s_str in E. pose proof (getData_length (s_data s) 0 (s_sequential_length s) (N.to_nat (s_getExpectedLength s))) as L.
  fold (s_getData s) in L. destruct (s_encoding s).
  - injection E as <-. pose proof (chars_length (s_getData s)). lia.
  - apply M in E. lia.
  - injection E as <-. lia.
Qed.

Lemma fits_set : forall ucs2 n s pos b, modest ucs2 -> fits n s -> fits n (s_set ucs2 s pos b).
Proof.
  intros ucs2 n s pos b M [A B]. unfold s_set. destruct (_ <=? pos); [split; assumption|]. cbv zeta.
  assert (L : length (list_set (s_data s) (N.to_nat pos) b) = length (s_data s)) by apply StringP.list_set_length.
  destruct (s_isComplete _).
  - destruct (s_str ucs2 _) as [t|] eqn:E.
    + apply str_length in E; [|exact M]. split; cbn [s_data s_last_complete_string] in *; lia.
    + split; cbn [s_clear s_data s_last_complete_string length]; lia.
  - split; cbn [s_data s_last_complete_string]; lia.
Qed.
Lemma fits_set2 : forall ucs2 n s pos a b, modest ucs2 -> fits n s -> fits n (s_set2 ucs2 s pos a b).
Proof. intros. unfold s_set2. apply fits_set; [assumption|]. apply fits_set; assumption. Qed.
Lemma fits_clear : forall n s, fits n s -> fits n (s_clear s).
Proof. intros n s [A B]. split; [exact A|cbn; lia]. Qed.
Lemma fits_resize : forall n m s, fits n s -> (N.to_nat m <= n)%nat -> fits n (s_resize s m).
Proof.
  intros n m s [A B] H. split; [|exact B]. cbn [s_resize s_data]. rewrite app_length, firstn_length, repeat_length. lia.
Qed.
Lemma fits_new : forall n m, (N.to_nat m <= n)%nat -> fits n (RDSString_new m).
Proof. intros n m H. split; cbn [RDSString_new s_data s_last_complete_string length]; [rewrite repeat_length|]; lia. Qed.
Lemma rtrim_length : forall t, (length (rtrim t) <= length t)%nat.
Proof.
  intros t. unfold rtrim. rewrite rev_length. rewrite <- (rev_length t). generalize (rev t). clear t. intros t.
  induction t as [|c t IH]; [cbn; lia|]. cbn. destruct (c =? 32); cbn [length]; [etransitivity; [exact IH|lia]|lia].
Qed.

(* ---- radiotext ---- *)
Definition rt_fits (r : RadioText) : Prop :=
  fits 64 (rt_text r) /\ (length (rt_previous_potentially_complete_message r) <= 192)%nat.
Lemma rt_fits_size : forall r, rt_fits r -> radiotext_size r <= 512.
Proof. intros r [A B]. apply fits_size in A. unfold radiotext_size, count. lia. Qed.
Lemma rt_fits_text : forall r t, rt_fits r -> fits 64 t -> rt_fits (rt_set_text r t).
Proof. intros r t [A B] H. split; [exact H|exact B]. Qed.
Lemma rt_fits_plus : forall r p, rt_fits r -> rt_fits (rt_set_plus r p).
Proof. intros r t [A B]. split; assumption. Qed.
Lemma rt_fits_update : forall ucs2 r pos a b, modest ucs2 -> rt_fits r -> rt_fits (rt_update ucs2 r pos a b).
Proof. intros ucs2 r pos a b M H. apply rt_fits_text; [exact H|]. apply fits_set2; [exact M|apply H]. Qed.

(* ---- files ---- *)
Definition file_ok (f : RFTFile) : Prop :=
  Forall (fun p => fst p < 32768) (rft_data f) /\ Forall (fun a => a < 32768) (rft_recv f) /\ Forall (fun p => fst p < 512) (rft_crcs f).
Lemma file_ok_size : forall f, file_ok f -> file_size f <= 197120.
Proof.
  intros f (A & B & D). unfold file_size.
  assert (A' := nodup_below (map fst (rft_data f)) 32768). assert (D' := nodup_below (map fst (rft_crcs f)) 512). pose proof (nodup_below _ _ B).
  rewrite Forall_map in A', D'. specialize (A' A). specialize (D' D). lia.
Qed.
Lemma file_ok_init : file_ok rft_init.
Proof. repeat split; constructor. Qed.
Lemma file_ok_clear : forall f, file_ok f -> file_ok (rft_clear f).
Proof. intros f (A & _ & _). repeat split; [exact A|constructor|constructor]. Qed.
Lemma file_ok_receive : forall f t a x y z, file_ok f -> file_ok (rft_receive f t a x y z).
Proof.
  intros f t a x y z H. unfold rft_receive. set (f1 := if negb _ then _ else _).
  assert (H1 : file_ok f1) by (unfold f1; destruct (negb _); [apply file_ok_clear; exact H|exact H]).
  clearbody f1. destruct H1 as (A & B & D). cbv zeta. destruct (a <? kMaxNumSegments) eqn:E; [|repeat split; assumption].
  unfold kMaxNumSegments in E. repeat split; cbn [rft_data rft_recv rft_crcs]; try constructor; try assumption; cbn [fst]; lia.
Qed.
Lemma file_ok_shown : forall f, file_ok f -> file_ok (snd (rft_getBase64Data f)).
Proof. intros f H. exact H. Qed.
Lemma file_ok_info : forall f n b, file_ok f -> file_ok (rft_setCRCFlag (rft_setSize f n) b).
Proof. intros f n b H. unfold rft_setSize. destruct (_ <=? _); exact H. Qed.
Lemma file_ok_crc : forall f c, file_ok f -> post file_ok (rft_receiveCRC f c).
Proof.
  intros f c (A & B & D). unfold rft_receiveCRC. destruct (_ <? _) eqn:E; [|exact I]. unfold kMaxNumCRCs in E.
  repeat split; cbn [rft_data rft_recv rft_crcs]; try assumption. constructor; [cbn [fst]; lia|assumption].
Qed.

(* ---- traffic messages ---- *)
Definition message_ok (m : Message) : Prop :=
  m_events m = [] /\ m_supplementary m = [] /\ m_quantifiers m = [] /\ m_diversion m = [] /\ length (m_parts m) = 5%nat.
Lemma message_ok_new : forall b, message_ok (Message_new b).
Proof. intros b. repeat split. Qed.

Lemma field_parts : forall d m f, m_parts (apply_field d m f) = m_parts m /\ m_is_complete (apply_field d m f) = m_is_complete m.
Proof.
  intros d m [label data]. unfold apply_field. cbv zeta.
  repeat match goal with |- context [match ?x with _ => _ end] => destruct x end; split; reflexivity.
Qed.
Lemma fields_complete : forall d fs m, m_is_complete (fold_left (apply_field d) fs m) = m_is_complete m.
Proof.
  intros d fs. induction fs as [|f fs IH]; intros m; [reflexivity|]. cbn [fold_left]. rewrite IH. apply field_parts.
Qed.
Lemma decodeMulti_cases : forall d m, decodeMulti d m = m \/ m_is_complete (decodeMulti d m) = true.
Proof.
  intros d m. unfold decodeMulti. destruct (negb _); [left; reflexivity|right]. cbv zeta.
  destruct (part_received _); [rewrite fields_complete|]; reflexivity.
Qed.
Lemma pushMulti_ok : forall d m x y z, message_ok m -> m_is_complete (pushMulti d m x y z) = false -> message_ok (pushMulti d m x y z).
Proof.
  intros d m x y z (A & B & D & E & L). unfold pushMulti. cbv zeta.
  set (cl := if getBool y 15 then _ else _). destruct cl as [cur is_last]. set (m1 := m_set_parts m _ _).
  assert (H1 : message_ok m1).
  { unfold m1, message_ok. cbn [m_set_parts m_events m_supplementary m_quantifiers m_diversion m_parts]. rewrite StringP.list_set_length. repeat split; assumption. }
  clearbody m1. destruct is_last; [|intros _; exact H1].
  destruct (decodeMulti_cases d m1) as [-> |Ec].
  - intros _. destruct H1 as (A1 & B1 & D1 & E1 & L1). unfold message_ok, m_clear.
    cbn [m_set_parts m_events m_supplementary m_quantifiers m_diversion m_parts]. rewrite map_length. repeat split; assumption.
  - cbn [m_clear m_set_parts m_is_complete]. rewrite Ec. discriminate.
Qed.

Definition traffic_ok (t : TMCService) : Prop := message_ok (t_message t) /\ fits 8 (t_ps t) /\ t_other_network_freqs t = [].
Lemma traffic_ok_size : forall t, traffic_ok t -> traffic_size t <= 45.
Proof.
  intros t ((A & B & D & E & L) & P & F). apply fits_size in P. unfold traffic_size, message_size. rewrite A, B, D, E, F.
  unfold count at 1 2 3 4 5. rewrite L. cbn [length map_size map nodup total fold_right]. unfold map_size. cbn [map nodup total fold_right]. lia.
Qed.

Lemma traffic_system : forall t w j, traffic_ok t -> post (fun tj => traffic_ok (fst tj)) (receiveSystemGroup t w j).
Proof.
  intros t w j H. unfold receiveSystemGroup. cbv zeta.
  repeat first [apply post_skip; intros ? | match goal with |- post _ (if ?b then _ else _) => destruct b end | apply post_ok; exact H].
Qed.
Lemma traffic_tuning : forall ucs2 t x y z j, modest ucs2 -> traffic_ok t -> post (fun tj => traffic_ok (fst tj)) (receiveTuningInfo ucs2 t x y z j).
Proof.
  intros ucs2 t x y z j M H. unfold receiveTuningInfo. cbv zeta.
  repeat first [apply post_skip; intros ? | match goal with |- post _ (if ?b then _ else _) => destruct b end
               | apply post_ok; first [exact H | destruct H as (A & B & D); split; [exact A|split; [repeat (apply fits_set; [exact M|]); exact B|first [exact D|reflexivity]]]]].
Qed.
Lemma traffic_user : forall d ucs2 t x y z j, modest ucs2 -> traffic_ok t -> post (fun tj => traffic_ok (fst tj)) (receiveUserGroup d ucs2 t x y z j).
Proof.
  intros d ucs2 t x y z j M H. unfold receiveUserGroup.
  destruct (negb _); [exact H|]. destruct (_ =? 0).
  { cbv zeta. repeat (apply post_skip; intros ?). exact H. }
  destruct (getBool x 4); [apply traffic_tuning; assumption|].
  destruct (_ && _); [exact H|]. destruct (getBool x 3); [apply post_skip; intros ?; exact H|].
  cbv zeta. set (m := if _ =? _ then _ else _).
  assert (Hm : message_ok m) by (unfold m; destruct (_ =? _); [apply H|apply message_ok_new]). clearbody m.
  destruct H as (A & B & D). destruct (m_is_complete _) eqn:E.
  - apply post_skip. intros ?. split; [apply message_ok_new|]. split; assumption.
  - split; [apply pushMulti_ok; assumption|]. split; assumption.
Qed.

(* ---- the station ---- *)
Definition type_ok (t : GroupType) : Prop := gt_number t < 16.
Record roomy (st : Station) : Prop := mkRoomy {
  ro_ps : fits 8 (st_ps st);
  ro_long : fits 32 (st_long_ps st);
  ro_rt : rt_fits (st_radiotext st);
  ro_ert : rt_fits (st_ert st);
  ro_pn : fits 8 (pn_text (st_ptyname st));
  ro_tdc : fits 128 (st_full_tdc st);
  ro_groups : Forall (fun p => type_ok (fst p)) (st_oda_app_for_group st);
  ro_pipes : Forall (fun p => fst p < 64) (st_oda_app_for_pipe st);
  ro_names : Forall (fun p => fst p < 65536 /\ fits 8 (snd p)) (st_eon_ps_names st);
  ro_freqs : Forall (fun p => fst p < 65536 /\ length (alt_freqs (snd p)) = 25%nat) (st_eon_alt_freqs st);
  ro_af : length (alt_freqs (st_alt_freq_list st)) = 25%nat;
  ro_tmc : traffic_ok (st_tmc st);
  ro_files : Forall file_ok (st_rft_file st) /\ length (st_rft_file st) = 16%nat
}.

Definition all_types : list GroupType := flat_map (fun n => [mkGroupType n VA; mkGroupType n VB; mkGroupType n VC]) (nseq 0 16).
Lemma types_count : forall l, Forall type_ok l -> count (nodup type_dec l) <= 48.
Proof.
  intros l F. unfold count. assert (L : (length (nodup type_dec l) <= length all_types)%nat).
  { apply NoDup_incl_length; [apply NoDup_nodup|]. intros [n v] I. apply nodup_In in I. rewrite Forall_forall in F. specialize (F _ I).
    unfold type_ok in F. cbn [gt_number] in F. apply in_flat_map. exists n. split; [apply nseq_In; lia|]. destruct v; cbn; tauto. }
  change (length all_types) with 48%nat in L. lia.
Qed.

Lemma roomy_size : forall st, roomy st -> station_size st <= 7547000.
Proof.
  intros st [A B D E F G H I J K L M [N0 O]]. unfold station_size. cbn [total fold_right].
  apply fits_size in A, B, F, G. apply rt_fits_size in D, E. apply traffic_ok_size in M.
  assert (H' := types_count (map fst (st_oda_app_for_group st))). rewrite Forall_map in H'. specialize (H' H).
  assert (I' := nodup_below (map fst (st_oda_app_for_pipe st)) 64). rewrite Forall_map in I'. specialize (I' I).
  assert (J' : map_size text_size (st_eon_ps_names st) <= (1 + 40) * 65536).
  { apply map_size_bound. eapply Forall_impl; [|exact J]. intros p [P Q]. split; [exact P|]. apply fits_size in Q. exact Q. }
  assert (K' : map_size frequencies_size (st_eon_alt_freqs st) <= (1 + 25) * 65536).
  { apply map_size_bound. eapply Forall_impl; [|exact K]. intros p [P Q]. split; [exact P|]. unfold frequencies_size, count. lia. }
  assert (L' : frequencies_size (st_alt_freq_list st) <= 25) by (unfold frequencies_size, count; lia).
  assert (N' : total (map file_size (st_rft_file st)) <= 197120 * count (st_rft_file st)).
  { apply total_bound. eapply Forall_impl; [|exact N0]. exact file_ok_size. }
  unfold count in N'. rewrite O in N'. unfold count in *. lia.
Qed.

Lemma roomy_new : forall w, roomy (Station_new w).
Proof.
  intros w.
  assert (T : rt_fits RadioText_default) by (split; [apply fits_new; vm_compute; lia|cbn; lia]).
  constructor.
  - apply fits_new. vm_compute. lia.
  - assert (H : fits 32 (RDSString_new 32)) by (apply fits_new; vm_compute; lia). exact H.
  - exact T.
  - exact T.
  - apply fits_new. vm_compute. lia.
  - apply fits_new. vm_compute. lia.
  - constructor.
  - constructor.
  - constructor.
  - constructor.
  - reflexivity.
  - split; [apply message_ok_new|]. split; [apply fits_new; vm_compute; lia|reflexivity].
  - split; [|reflexivity]. cbn [Station_new st_rft_file]. apply Forall_forall. intros f I. apply repeat_spec in I. subst f. exact file_ok_init.
Qed.
Lemma roomy_new_pi : forall w pi, roomy (Station_new_pi w pi).
Proof. intros w pi. destruct (roomy_new w). constructor; assumption. Qed.

Definition keeps (sj : Station * json) : Prop := roomy (fst sj).

Ltac walk := repeat first [apply post_skip; intros ? | match goal with |- post _ (if ?b then _ else _) => destruct b end
  | match goal with |- post _ (let '(_, _) := ?b in _) => destruct b end].
Ltac field_of := match goal with H : roomy ?s |- roomy _ => destruct H; constructor; try assumption end.

Lemma insert_length : forall l c, length (alt_freqs l) = 25%nat -> post (fun l' => length (alt_freqs l') = 25%nat) (af_insert l c).
Proof.
  intros l c H. unfold af_insert. cbv zeta. destruct (_ && _).
  - cbn [num_received num_expected alt_freqs]. destruct (_ <? _); [|exact H].
    unfold arr_set. destruct (_ <? _); [|exact I]. cbn [bind post alt_freqs]. rewrite StringP.list_set_length. exact H.
  - destruct (_ || _); [exact H|]. destruct (_ && _); [exact H|]. destruct (_ =? _); exact H.
Qed.

Lemma decodeAF_length : forall o l b j, length (alt_freqs l) = 25%nat -> post (fun lj => length (alt_freqs (fst lj)) = 25%nat) (decodeAF o l b j).
Proof.
  intros o l b j H. unfold decodeAF. eapply post_bind; [apply insert_length; exact H|]. clear l H. intros l H.
  eapply post_bind; [apply insert_length; exact H|]. clear l H. intros l H.
  walk; try exact H. destruct a as [|tuned rest]; [exact I|]. apply post_skip. intros [afs regs]. walk; exact H.
Qed.

Lemma type0_keeps : forall env o st g j, modest (env_ucs2 env) -> roomy st -> post keeps (decodeType0 env o st g j).
Proof.
  intros env o st g j M R. unfold decodeType0. cbv zeta.
  do 3 (apply post_skip; intros ?). destruct (negb (g_has g BLOCK3)).
  { apply post_skip. intros isB. unfold keeps. cbn [post fst]. destruct isB; [|exact R]. field_of. }
  apply (post_bind _ _ keeps).
  { destruct (Version_eqb _ VA); [|exact R]. eapply post_bind; [apply decodeAF_length; apply R|]. intros [l j'] H. unfold keeps. cbn [post fst] in *. field_of. }
  clear st R. intros [st j'] R. unfold keeps in R. cbn [fst] in R. destruct (negb _); [exact R|].
  set (ps := s_set2 _ _ _ _ _). assert (P : fits 8 ps) by (apply fits_set2; [exact M|apply R]). clearbody ps.
  assert (R' : roomy (set_ps st ps)) by field_of.
  destruct (s_isComplete ps); [walk; exact R'|]. destruct (o_show_partial o); [|exact R']. destruct (s_str _ ps); walk; exact R'.
Qed.

Lemma type2_text : forall ucs2 (changed isA : bool) r p a b p' a' b', modest ucs2 -> rt_fits r ->
  let r1 := if changed then rt_set_text r (s_clear (rt_text r)) else r in
  rt_fits (rt_update ucs2 (if isA then rt_update ucs2 (rt_set_text r1 (s_resize (rt_text r1) 64)) p a b
                           else rt_set_text r1 (s_resize (rt_text r1) 32)) p' a' b').
Proof.
  intros ucs2 changed isA r p a b p' a' b' M Fr r1.
  assert (F1 : rt_fits r1) by (unfold r1; destruct changed; [apply rt_fits_text; [exact Fr|apply fits_clear, Fr]|exact Fr]). clearbody r1.
  apply rt_fits_update; [exact M|].
  destruct isA; [apply rt_fits_update; [exact M|]|]; (apply rt_fits_text; [exact F1|apply fits_resize; [apply F1|vm_compute; lia]]).
Qed.

Ltac type2_rest M Fr :=
  match goal with |- context [set_radiotext ?st ?r] =>
    let R' := fresh in assert (R' : roomy (set_radiotext st r)) by
      (let F := fresh in assert (F : rt_fits r) by (apply type2_text; [exact M|exact Fr]); revert F; generalize r; intros; field_of);
    revert R'; generalize (set_radiotext st r); intros ? R' end;
  repeat match goal with
  | |- post _ (match ?x with _ => _ end) => destruct x
  | |- post _ (bind _ _) => apply post_skip; intros ?
  end; try assumption.

Lemma type2_keeps : forall env o st g j, modest (env_ucs2 env) -> roomy st -> post keeps (decodeType2 env o st g j).
Proof.
  intros env o st g j M R. unfold decodeType2. destruct (negb _); [exact R|]. cbv zeta.
  destruct (rt_isABChanged (st_radiotext st) (getBool (g_get g BLOCK2) 4)) as [changed rt] eqn:E.
  assert (F : rt_fits rt) by (unfold rt_isABChanged in E; injection E as _ <-; apply R). clear E.
  apply post_skip. intros j1.
  destruct (_ && _).
  - destruct (s_str _ (rt_text rt)) as [t|] eqn:E; [|walk; unfold keeps; cbn [post fst]; field_of].
    assert (Fp : rt_fits (rt_set_previous rt (rtrim t))).
    { split; [apply F|]. cbn [rt_set_previous rt_previous_potentially_complete_message]. apply str_length in E; [|exact M].
      pose proof (rtrim_length t). destruct F as [[F _] _]. lia. }
    generalize (bytes_eqb (rtrim t) (rt_previous_potentially_complete_message rt)). intros h.
    revert Fp. generalize (rt_set_previous rt (rtrim t)) as r. intros r Fr. type2_rest M Fr.
  - type2_rest M F.
Qed.

Lemma type_of_ok : forall n, type_ok (GroupType_of n).
Proof. intros n. unfold type_ok, GroupType_of. cbn [gt_number]. change 0xF with (N.ones 4). rewrite N.land_ones. apply N.mod_lt. discriminate. Qed.

Lemma type3_keeps : forall st g j, roomy st -> post keeps (decodeType3A st g j).
Proof.
  intros st g j R. unfold decodeType3A. destruct (negb _); [exact R|]. destruct (negb _); [exact R|]. cbv zeta.
  set (t := GroupType_of _). assert (T : type_ok t) by apply type_of_ok. clearbody t.
  set (st1 := set_oda_group st _). assert (R1 : roomy st1) by (unfold st1; field_of; cbn; constructor; assumption). clearbody st1.
  do 2 (apply post_skip; intros ?). destruct (_ =? _); [exact R1|].
  destruct (_ =? _); [unfold keeps; cbn [post fst]; field_of|]. destruct (_ =? _); [unfold keeps; cbn [post fst]; field_of|].
  destruct (_ =? _); [unfold keeps; cbn [post fst]; field_of|].
  destruct (_ || _); [|walk; exact R1].
  eapply post_bind; [apply traffic_system; apply R1|]. intros [t' j'] H. unfold keeps. cbn [post fst] in *. field_of.
Qed.

Lemma type5_keeps : forall env st g j, modest (env_ucs2 env) -> roomy st -> post keeps (decodeType5 env st g j).
Proof.
  intros env st g j M R. unfold decodeType5. cbv zeta. apply post_skip. intros ?. destruct (Version_eqb _ _); [|walk; exact R].
  apply post_skip. intros ?. set (full := s_set2 _ _ (getBits 5 (g_get g BLOCK2) 0 * 4 + 2) _ _).
  assert (F : fits 128 full) by (apply fits_set2; [exact M|]; apply fits_set2; [exact M|apply R]). clearbody full.
  walk; unfold keeps; cbn [post fst]; field_of.
Qed.

Lemma type10_keeps : forall env st g j, modest (env_ucs2 env) -> roomy st -> post keeps (decodeType10A env st g j).
Proof.
  intros env st g j M R. unfold decodeType10A. destruct (_ || _); [exact R|]. cbv zeta. set (t := pn_update _ _ _ _ _ _ _).
  assert (F : fits 8 t).
  { unfold t, pn_update. apply fits_set2; [exact M|]. apply fits_set2; [exact M|]. destruct (Bool.eqb _ _); [apply R|apply fits_clear, R]. }
  clearbody t. walk; unfold keeps; cbn [post fst]; field_of.
Qed.

Lemma find_forall : forall (A : Type) (P : A -> Prop) k m v, Forall (fun p : N * A => P (snd p)) m -> find_code k m = Some v -> P v.
Proof.
  intros A P k m v F. induction F as [|[k' v'] m H F IH]; intros E; [discriminate E|]. cbn [find_code] in E.
  destruct (k =? k'); [injection E as <-; exact H|exact (IH E)].
Qed.

Lemma type14_keeps : forall env o st g j, modest (env_ucs2 env) -> sixteen_bit g -> roomy st -> post keeps (decodeType14 env o st g j).
Proof.
  intros env o st g j M W R. unfold decodeType14. destruct (negb _); [exact R|]. cbv zeta.
  do 2 (apply post_skip; intros ?). destruct (Version_eqb _ _); [apply post_skip; intros []; exact R|]. destruct (negb _); [exact R|].
  destruct (_ <=? 3).
  { set (ps0 := match find_code _ _ with Some p => p | None => _ end).
    assert (F0 : fits 8 ps0).
    { unfold ps0. destruct (find_code _ _) as [p|] eqn:E; [|apply fits_new; vm_compute; lia].
      refine (find_forall _ (fits 8) _ _ _ _ E). eapply Forall_impl; [|apply R]. intros q [_ Q]. exact Q. }
    clearbody ps0. set (ps := s_set _ _ _ _). assert (F : fits 8 ps) by (unfold ps; repeat (apply fits_set; [exact M|]); exact F0). clearbody ps.
    assert (R' : roomy (set_eon_ps st ((g_get g BLOCK4, ps) :: st_eon_ps_names st))) by (field_of; cbn; constructor; [split; [apply W|exact F]|assumption]).
    walk; exact R'. }
  destruct (_ =? 4); [|walk; exact R].
  set (l0 := match find_code _ _ with Some l => l | None => _ end).
  assert (F0 : length (alt_freqs l0) = 25%nat).
  { unfold l0. destruct (find_code _ _) as [p|] eqn:E; [|reflexivity].
    refine (find_forall _ (fun l => length (alt_freqs l) = 25%nat) _ _ _ _ E). eapply Forall_impl; [|apply R]. intros q [_ Q]. exact Q. }
  clearbody l0. eapply post_bind; [apply insert_length; exact F0|]. clear l0 F0. intros l0 F0.
  eapply post_bind; [apply insert_length; exact F0|]. clear l0 F0. intros l F.
  destruct (af_isComplete l); walk; unfold keeps; cbn [post fst]; (field_of; cbn; constructor; [split; [apply W|exact F]|assumption]).
Qed.

Lemma type15_keeps : forall env o st g j, modest (env_ucs2 env) -> roomy st -> post keeps (decodeType15A env o st g j).
Proof.
  intros env o st g j M R. unfold decodeType15A. cbv zeta. set (t := if g_has g BLOCK4 then _ else _).
  assert (F : fits 32 t).
  { unfold t. destruct (g_has g BLOCK4); destruct (g_has g BLOCK3); repeat (apply fits_set2; [exact M|]); apply R. }
  clearbody t. assert (R' : roomy (set_long_ps st t)) by field_of.
  destruct (_ && _); [walk; exact R'|]. destruct (o_show_partial o); [|exact R']. destruct (s_str _ t); walk; exact R'.
Qed.

Lemma plus_fits : forall g rt path j, rt_fits rt -> post (fun rj => rt_fits (fst rj)) (parseRadioTextPlus g rt path j).
Proof.
  intros g rt path j F. unfold parseRadioTextPlus. cbv zeta. do 4 (apply post_skip; intros ?). cbn [post fst].
  destruct (_ || _); [|exact F]. apply rt_fits_plus, rt_fits_text; [exact F|apply fits_clear, F].
Qed.

Lemma ert_keeps : forall env st g j, modest (env_ucs2 env) -> roomy st -> post keeps (parseEnhancedRT env st g j).
Proof.
  intros env st g j M R. unfold parseEnhancedRT. cbv zeta. set (rt := if g_has g BLOCK4 then _ else _).
  assert (F : rt_fits rt) by (unfold rt; destruct (g_has g BLOCK4); repeat (apply rt_fits_update; [exact M|]); apply R). clearbody rt.
  walk; unfold keeps; cbn [post fst]; field_of.
Qed.

Lemma tmc_keeps : forall env st g j, modest (env_ucs2 env) -> roomy st -> post keeps (receiveTMC env st g j).
Proof.
  intros env st g j M R. unfold receiveTMC. destruct (_ && _); [|exact R].
  eapply post_bind; [apply traffic_user; [exact M|apply R]|]. intros [t j'] H. unfold keeps. cbn [post fst] in *. field_of.
Qed.

Lemma oda_keeps : forall env st g j, modest (env_ucs2 env) -> roomy st -> post keeps (decodeODAGroup env st g j).
Proof.
  intros env st g j M R. unfold decodeODAGroup. cbv zeta. destruct (find_type _ _) as [app|]; [|walk; exact R].
  destruct (_ =? _); [walk; exact R|].
  destruct (_ =? _). { eapply post_bind; [apply plus_fits; apply R|]. intros [rt j'] H. unfold keeps. cbn [post fst] in *. field_of. }
  destruct (_ =? _). { eapply post_bind; [apply plus_fits; apply R|]. intros [rt j'] H. unfold keeps. cbn [post fst] in *. field_of. }
  destruct (_ =? _); [apply ert_keeps; assumption|]. destruct (_ || _); [apply tmc_keeps; assumption|]. walk; exact R.
Qed.

Lemma get_file : forall st i, roomy st -> post file_ok (arr_get (st_rft_file st) i).
Proof.
  intros st i R. unfold arr_get. destruct (nth_error _ _) as [f|] eqn:E; [|exact I]. cbn [post]. apply nth_error_In in E.
  destruct (ro_files st R) as [F _]. rewrite Forall_forall in F. apply F. exact E.
Qed.
Lemma Forall_list_set : forall (A : Type) (P : A -> Prop) l i x, Forall P l -> P x -> Forall P (list_set l i x).
Proof.
  intros A P l. induction l as [|a l IH]; intros i x F H; [destruct i; exact F|]. inversion F; subst.
  destruct i; cbn [list_set]; constructor; try assumption. apply IH; assumption.
Qed.
Lemma set_file : forall st i f, roomy st -> file_ok f -> post (fun fs => Forall file_ok fs /\ length fs = 16%nat) (arr_set (st_rft_file st) i f).
Proof.
  intros st i f R F. unfold arr_set. destruct (_ <? _); [|exact I]. cbn [post]. destruct (ro_files st R) as [A B].
  split; [apply Forall_list_set; assumption|]. rewrite StringP.list_set_length. exact B.
Qed.

Lemma rft_keeps : forall st g pipe j, roomy st -> post keeps (decodeC_rft st g pipe j).
Proof.
  intros st g pipe j R. unfold decodeC_rft. cbv zeta. do 4 (apply post_skip; intros ?).
  eapply post_bind; [apply get_file; exact R|]. intros f F. apply post_skip. intros ?.
  apply (post_bind _ _ (fun fj => file_ok (fst fj))).
  { destruct (rft_hasNewCompleteFile _); [|apply file_ok_receive; exact F]. unfold rft_getBase64Data. walk. apply file_ok_clear.
    pose proof (file_ok_shown _ (file_ok_receive f (getBits 1 (g_get g BLOCK1) 7) (getBits2 15 (g_get g BLOCK1) (g_get g BLOCK2) 8) (g_get g BLOCK2) (g_get g BLOCK3) (g_get g BLOCK4) F)) as H.
    exact H. }
  clear f F. intros [f j'] F. cbn [fst] in F. eapply post_bind; [apply set_file; [exact R|exact F]|]. intros fs Fs.
  unfold keeps. cbn [post fst]. field_of.
Qed.

Lemma assign_keeps : forall st g ch j, ch < 64 -> roomy st -> post keeps (decodeC_assign st g ch j).
Proof.
  intros st g ch j H R. unfold decodeC_assign. cbv zeta. do 2 (apply post_skip; intros ?).
  set (st1 := set_oda_pipe st _). assert (R1 : roomy st1) by (unfold st1; field_of; cbn; constructor; assumption).
  apply post_skip. intros ?. destruct (ch <? 16); [|walk; exact R1].
  destruct (_ =? 0).
  { eapply post_bind; [apply get_file; exact R1|]. intros f F. eapply post_bind; [apply set_file; [exact R1|apply file_ok_info; exact F]|].
    intros fs Fs. walk. unfold keeps. cbn [post fst]. field_of. }
  destruct (_ =? 1); [|walk; exact R1].
  eapply post_bind; [apply get_file; exact R1|]. intros f F. eapply post_bind; [apply file_ok_crc; exact F|]. clear f F. intros f F.
  eapply post_bind; [apply set_file; [exact R1|exact F]|]. intros fs Fs.
  walk; unfold keeps; cbn [post fst]; field_of.
Qed.

Lemma typeC_keeps : forall st g j, roomy st -> post keeps (decodeC st g j).
Proof.
  intros st g j R. unfold decodeC. destruct (_ || _); [exact R|]. cbv zeta. destruct (_ && _); [walk; exact R|].
  destruct (_ && _); [apply rft_keeps; exact R|]. destruct (_ =? 1); [walk; exact R|]. destruct (_ && _); [|walk; exact R].
  destruct (_ =? 1); [|walk; exact R]. apply assign_keeps; [|exact R]. apply (getBits_le 6 _ 0 64). reflexivity.
Qed.

Lemma decode_keeps : forall env o st g j, modest (env_ucs2 env) -> sixteen_bit g -> roomy st -> post keeps (decodeByType env o st g j).
Proof.
  intros env o st g j M W R. unfold decodeByType. cbv zeta.
  destruct (Version_eqb _ VC); [apply typeC_keeps; exact R|].
  destruct (_ =? 0); [apply type0_keeps; assumption|]. destruct (_ =? 1); [walk; exact R|]. destruct (_ =? 2); [apply type2_keeps; assumption|].
  destruct (_ && _); [apply type3_keeps; assumption|]. destruct (_ && _); [walk; exact R|]. destruct (_ && _); [apply type10_keeps; assumption|].
  destruct (_ =? 14); [apply type14_keeps; assumption|]. destruct (_ && _); [walk; exact R|].
  destruct (find_type _ _); [apply oda_keeps; assumption|].
  destruct (_ =? 5); [apply type5_keeps; assumption|]. destruct (_ =? 6); [walk; exact R|]. destruct (_ && _); [walk; exact R|].
  destruct (_ && _); [apply tmc_keeps; assumption|]. destruct (_ && _); [walk; exact R|]. destruct (_ && _); [apply type15_keeps; assumption|].
  apply oda_keeps; assumption.
Qed.

Lemma roomy_had : forall st g, roomy st -> roomy (had st g).
Proof. intros st g R. unfold had. destruct (_ || _); [exact R|field_of]. Qed.

Lemma update_keeps : forall env o st g, modest (env_ucs2 env) -> sixteen_bit g -> roomy st -> post (fun sl => roomy (fst sl)) (updateAndPrint env o st g).
Proof.
  intros env o st g M W R. rewrite update_eq. destruct (silent st g).
  { destruct (_ && _); [apply post_skip; intros ?|]; apply roomy_had; exact R. }
  apply post_skip. intros j. apply (post_bind _ _ keeps).
  { destruct (g_has_type g); [apply decode_keeps; [exact M|exact W|]|]; apply roomy_had; exact R. }
  intros [st' j'] R'. apply post_skip. intros t. exact R'.
Qed.

(* ---- the channel ---- *)
Definition stream_small (s : BlockStream) : Prop :=
  sixteen_bit (bst_current_group s) /\ sixteen_bit (bst_ready_group s) /\ length (rs_history (bst_error_sum50 s)) = 50%nat.
Record small (c : Channel) : Prop := mkSmall {
  sm_station : roomy (ch_station c);
  sm_streams : Forall stream_small (ch_block_stream c);
  sm_four : length (ch_block_stream c) = 4%nat;
  sm_avg : length (ra_history (ch_bler_average c)) = 12%nat
}.

Lemma small_size : forall c, small c -> channel_size c < 8000000.
Proof.
  intros c [A B D E]. unfold channel_size. apply roomy_size in A.
  assert (T : total (map (fun s => count (rs_history (bst_error_sum50 s))) (ch_block_stream c)) <= 50 * count (ch_block_stream c)).
  { apply total_bound. eapply Forall_impl; [|exact B]. intros s (_ & _ & H). unfold count. lia. }
  unfold count in *. rewrite D in T. rewrite E. lia.
Qed.

Lemma default_words : sixteen_bit Group_default.
Proof. intros b. destruct b; reflexivity. Qed.
Lemma set_words : forall g n b, sixteen_bit g -> blk_data b < 65536 -> sixteen_bit (g_setBlock g n b).
Proof.
  intros g n b W H.
  assert (P : sixteen_bit (g_put_block g n b)) by (intros k; destruct n, k; cbn; first [exact H|exact (W BLOCK1)|exact (W BLOCK2)|exact (W BLOCK3)|exact (W BLOCK4)]).
  assert (T : forall g' t h, sixteen_bit g' -> sixteen_bit (g_put_type g' t h)) by (intros g' t h W' k; specialize (W' k); destruct k; exact W').
  unfold g_setBlock. cbv zeta. remember (g_put_block g n b) as g1 eqn:E1. clear E1. destruct (g_has_type g1); [exact P|].
  match goal with |- sixteen_bit (if _ && g_has ?x _ then _ else _) => assert (Q : sixteen_bit x) end.
  { destruct n; try exact P; repeat match goal with |- sixteen_bit (match ?x with _ => _ end) => destruct x end; first [exact P|apply T; exact P]. }
  match goal with |- sixteen_bit (if ?c then _ else _) => destruct c end; [apply T|]; exact Q.
Qed.

Lemma push_length : forall r v, length (rs_history (rs_push r v)) = length (rs_history r).
Proof. intros r v. unfold rs_push. cbv zeta. cbn [rs_history]. apply list_set_length. Qed.

Lemma find_small : forall s, stream_small s -> stream_small (findBlockInInputRegister s).
Proof.
  intros s H. unfold findBlockInInputRegister. cbv zeta. set (raw := N.land _ _). set (off := getOffsetForSyndrome _).
  assert (A : stream_small (acquireSync s off)).
  { unfold acquireSync. cbv zeta. destruct H as (H1 & H2 & H3). destruct (bst_is_in_sync s); [repeat split; assumption|].
    destruct (negb _); [|repeat split; assumption]. destruct (isSequenceFound _); repeat split; try assumption. exact default_words. }
  remember (acquireSync s off) as s1 eqn:E. clear E. clear H. destruct (bst_is_in_sync s1); [|exact A].
  set (s2 := if _ && _ then _ else _). assert (B : stream_small s2) by (unfold s2; destruct (_ && _); exact A). clearbody s2. clear A.
  set (e := bst_expected_offset s2). clearbody e. set (he := negb _). clearbody he.
  set (s3 := bst_set_sum _ _).
  assert (C : stream_small s3) by (destruct B as (B1 & B2 & B3); repeat split; [exact B1|exact B2|]; unfold s3; cbn [bst_set_sum bst_error_sum50]; rewrite push_length; exact B3).
  clearbody s3. clear B. destruct (_ <? _).
  { destruct C as (C1 & C2 & C3). repeat split; [exact C1|exact C2|]. cbn [bst_error_sum50 rs_clear rs_history]. rewrite repeat_length. exact C3. }
  assert (U : forall x, u16 x < 65536) by (intros x; apply N.mod_lt; discriminate).
  match goal with |- context [let '(_, _) := ?p in _] => assert (D : fst p < 65536); [|destruct p as [data off']; cbn [fst] in D] end.
  { destruct (_ && _); [|apply U]. destruct (correctBurstErrors _ _) as [[] cb]; apply U. }
  set (s4 := if Offset_eqb off' e then _ else _).
  assert (F : stream_small s4).
  { unfold s4. destruct (Offset_eqb off' e); [|exact C]. destruct C as (C1 & C2 & C3). repeat split; [|exact C2|exact C3].
    cbn [bst_set_group bst_current_group]. apply set_words; [exact C1|exact D]. }
  clearbody s4. destruct F as (F1 & F2 & F3). destruct (Offset_eqb _ OffA); repeat split; try assumption. exact default_words.
Qed.

Lemma step_small : forall s b, stream_small s ->
  stream_small (fst (bst_step s b)) /\ (forall g, snd (bst_step s b) = Some g -> sixteen_bit g).
Proof.
  intros s b H. unfold bst_step. assert (P : stream_small (pushBit s b)).
  { unfold pushBit. cbv zeta. set (s1 := mkBlockStream _ _ _ _ _ _ _ _ _ _ _ _). assert (H1 : stream_small s1) by exact H. clearbody s1.
    destruct (_ =? 0); [|exact H1]. exact (find_small s1 H1). }
  remember (pushBit s b) as s1 eqn:E. clear E. destruct (bst_has_group_ready s1); cbn [fst snd]; split; try assumption; [|discriminate].
  intros g E. injection E as <-. apply P.
Qed.

Lemma process_small : forall env o now c g w, modest (env_ucs2 env) -> sixteen_bit g -> small c ->
  post (fun cl => small (fst cl)) (processGroup env o now c g w).
Proof.
  intros env o now c g w M W H. unfold processGroup.
  match goal with |- context [let '(_, _) := ?p in _] => assert (W1 : sixteen_bit (fst p)); [|destruct p as [g1 time]; cbn [fst] in W1] end.
  { destruct (_ && _); [|exact W]. intros b. specialize (W b). destruct b; exact W. }
  match goal with |- context [let '(_, _) := ?p in _] => assert (W2 : sixteen_bit (fst p) /\ length (ra_history (snd p)) = 12%nat); [|destruct p as [g2 avg]; cbn [fst snd] in W2] end.
  { destruct (o_bler o); [|split; [exact W1|apply H]]. cbv zeta. cbn [fst snd]. split.
    - intros b. specialize (W1 b). destruct b; exact W1.
    - unfold ra_push. cbv zeta. cbn [ra_history]. rewrite list_set_length. apply H. }
  destruct W2 as [W2 A]. cbv zeta.
  set (g3 := g_setDataStream _ w).
  assert (W3 : sixteen_bit g3) by (unfold g3; intros b; specialize (W2 b); destruct (w =? 0), b; exact W2). clearbody g3.
  match goal with |- context [let '(_, _) := ?p in _] => assert (R : roomy (snd p)); [|destruct p as [cached st]; cbn [snd] in R] end.
  { destruct (g_hasPI g3); [|apply H]. destruct (pi_update _ _) as [cached []]; cbn [snd]; first [apply roomy_new_pi|apply H]. }
  destruct (o_output_type o).
  - cbn [post fst]. constructor; cbn; try apply H; assumption.
  - eapply post_bind; [apply update_keeps; eassumption|]. intros [st' line] R'. cbn [fst post] in *. constructor; cbn; try apply H; assumption.
Qed.

Lemma stream_in : forall c w, small c -> post stream_small (arr_get (ch_block_stream c) w).
Proof.
  intros c w H. unfold arr_get. destruct (nth_error _ _) as [s|] eqn:E; [|exact I]. cbn [post]. apply nth_error_In in E.
  pose proof (sm_streams c H) as F. rewrite Forall_forall in F. apply F, E.
Qed.
Lemma small_stream : forall c w s, small c -> stream_small s -> small (ch_set_stream c w s).
Proof.
  intros c w s [A B D E] H. constructor; cbn; try assumption; [apply Forall_list_set; assumption|]. rewrite list_set_length. exact D.
Qed.

Lemma call_small : forall env o c x, modest (env_ucs2 env) -> words_fit x -> small c -> post (fun cl => small (fst cl)) (do_call env o c x).
Proof.
  intros env o c x M W H. destruct x as [now g w|now b w|t now bits w|now|]; cbn [do_call words_fit] in *.
  - eapply post_bind; [apply process_small; eassumption|]. intros [c' l] H'. exact H'.
  - apply (post_bind _ _ (fun cl => small (fst cl))); [|intros [c' l] H'; exact H'].
    unfold processBit. eapply post_bind; [apply stream_in; exact H|]. intros s S. destruct (step_small s b S) as [S1 G].
    destruct (bst_step s b) as [s' og]. cbn [fst snd] in *. cbv zeta.
    destruct og as [g|]; [apply process_small; [exact M|apply G; reflexivity|]|]; apply small_stream; assumption.
  - unfold processBits. revert c H. induction bits as [|b bits IH]; intros c H; [exact H|]. cbn [processBits_loop].
    eapply post_bind; [apply stream_in; exact H|]. intros s S. destruct (step_small s b S) as [S1 G].
    destruct (bst_step s b) as [s' og]. cbn [fst snd] in *. cbv zeta.
    apply (post_bind _ _ (fun cl => small (fst cl))).
    + destruct og as [g|]; [|apply small_stream; assumption]. apply post_skip. intros age.
      match goal with |- context [g_setTime g ?t] => generalize t end. intros t'.
      eapply post_bind; [apply (process_small env o now _ (g_setTime g t') w M); [|apply small_stream; eassumption]|].
      { intros k. specialize (G g eq_refl k). destruct k; exact G. }
      intros [c1 l] [A B D E]. constructor; assumption.
    + intros [c1 l] H1. cbn [fst] in H1. eapply post_bind; [apply IH; exact H1|]. intros [c2 l2] H2. exact H2.
  - unfold flush. generalize [1; 2; 3]. intros l. revert c H. induction l as [|i l IH]; intros c H; [exact H|]. cbn [flush_loop].
    eapply post_bind; [apply stream_in; exact H|]. intros s S. apply (post_bind _ _ (fun cl => small (fst cl))).
    + destruct (g_isEmpty _); [exact H|]. eapply post_bind; [apply process_small; [exact M|apply S|exact H]|]. intros [c1 l1] H1. exact H1.
    + intros [c1 l1] H1. cbn [fst] in H1. eapply post_bind; [apply IH; exact H1|]. intros [c2 l2] H2. exact H2.
  - destruct H as [A B D E]. constructor; assumption.
Qed.

Lemma session_small : forall env o calls c, modest (env_ucs2 env) -> Forall words_fit calls -> small c ->
  post (fun cl => small (fst cl)) (session env o c calls).
Proof.
  intros env o calls. induction calls as [|x calls IH]; intros c M F H; [exact H|]. inversion F as [|? ? F1 F2]; subst. cbn [session].
  eapply post_bind; [apply call_small; eassumption|]. intros [c1 l1] H1. cbn [fst] in H1.
  eapply post_bind; [apply IH; assumption|]. intros [c2 l2] H2. exact H2.
Qed.

Lemma created_small : forall o c, created o c -> small c.
Proof.
  intros o c [[w ->]|[pi ->]]; (constructor; cbn [Channel_new Channel_new_pi ch_station ch_block_stream ch_bler_average];
    [first [apply roomy_new|apply roomy_new_pi]| |reflexivity|reflexivity]).
  all: apply Forall_forall; intros s I; apply repeat_spec in I; subst s; repeat split; try exact default_words; reflexivity.
Qed.

Lemma session_bounded : forall env o c calls c' lines, modest (env_ucs2 env) -> created o c -> Forall words_fit calls ->
  session env o c calls = Ok (c', lines) -> channel_size c' < 8000000.
Proof.
  intros env o c calls c' lines M C F E. pose proof (session_small env o calls c M F (created_small o c C)) as P.
  rewrite E in P. apply small_size. exact P.
Qed.

(* ---- what the readers of text input make ---- *)
Lemma z_u16_lt : forall z, z_u16 z < 65536.
Proof. intros z. unfold z_u16. pose proof (Z.mod_pos_bound z 0x10000 ltac:(reflexivity)). lia. Qed.
Lemma nibbles_lt : forall line left data valid, data < 65536 -> fst (fst (read_nibbles line left data valid)) < 65536.
Proof.
  induction line as [|c r IH]; intros left data valid H; destruct left as [|k]; try exact H. cbn [read_nibbles].
  destruct (c =? 32); [apply IH; exact H|]. destruct (hexval c); apply IH; [apply N.mod_lt; discriminate|exact H].
Qed.
Lemma hex_block_words : forall n gl, sixteen_bit (fst gl) -> sixteen_bit (fst (read_hex_block n gl)).
Proof.
  intros n [g line] H. unfold read_hex_block. pose proof (nibbles_lt line 4 0 true ltac:(reflexivity)) as D.
  destruct (read_nibbles line 4 0 true) as [[data valid] rest]. cbn [fst] in *. destruct valid; [apply set_words; [exact H|exact D]|exact H].
Qed.
Lemma hex_line_words : forall line g, sixteen_bit g -> sixteen_bit (parse_hex_line line g).
Proof.
  intros line g H. unfold parse_hex_line. destruct (hex_stream line) as [strm l]. cbv zeta. repeat apply hex_block_words.
  cbn [fst]. intros b. specialize (H b). destruct b; exact H.
Qed.
Lemma hex_group_words : forall o now lines, sixteen_bit (fst (readHexGroup o now lines)).
Proof.
  intros o now lines. unfold readHexGroup.
  assert (L : sixteen_bit (fst (readHexGroup_loop lines (g_disableOffsets Group_default)))).
  { induction lines as [|l r IH]; [exact default_words|]. cbn [readHexGroup_loop].
    destruct (_ <? _); [exact IH|]. cbn [fst]. apply hex_line_words. exact default_words. }
  destruct (readHexGroup_loop lines _) as [g rest]. cbn [fst] in *. destruct (o_timestamp o); [|exact L].
  intros b. specialize (L b). destruct b; exact L.
Qed.
Lemma hex_words : forall o clock s, Forall sixteen_bit (read_hex_input o clock s).
Proof.
  intros o clock s. unfold read_hex_input. generalize (length (split_lines s)). intros fuel. generalize (split_lines s). revert clock.
  induction fuel as [|f IH]; intros clock [|l r]; try constructor. cbn [hex_groups].
  pose proof (hex_group_words o (clock O) (l :: r)) as W. destruct (readHexGroup o (clock O) (l :: r)) as [g rest].
  constructor; [exact W|apply IH].
Qed.
Lemma R_words : forall line g g', sixteen_bit g -> parse_R line g = Some g' -> sixteen_bit g'.
Proof.
  intros line g g' H E. unfold parse_R in E. cbv zeta in E.
  repeat match type of E with context [match stol16 ?x with _ => _ end] => destruct (stol16 x) end; try discriminate E.
  injection E as <-. repeat (apply set_words; [|apply z_u16_lt]). exact H.
Qed.
Lemma tef_group_words : forall lines g, sixteen_bit g -> sixteen_bit (fst (readTEF_loop lines g)).
Proof.
  induction lines as [|line rest IH]; intros g H; [exact H|]. cbn [readTEF_loop].
  assert (A : sixteen_bit (fst (readTEF_loop rest g))) by (apply IH; exact H).
  assert (B : forall r, sixteen_bit (fst (match stol16 r with
      | Some v => readTEF_loop rest (g_setBlock g BLOCK1 (plain_block (z_u16 v) true)) | None => readTEF_loop rest g end))).
  { intros r. destruct (stol16 r); [|exact A]. apply IH, set_words; [exact H|apply z_u16_lt]. }
  assert (D : sixteen_bit (fst (if 15 <=? N.of_nat (length line) then
      match parse_R line g with Some g' => (g', rest) | None => (g, rest) end else readTEF_loop rest g))).
  { destruct (15 <=? _); [|exact A]. destruct (parse_R line g) as [g'|] eqn:E; [|exact H]. exact (R_words line g g' H E). }
  destruct line as [|c r]; [exact A|].
  repeat match goal with |- sixteen_bit (fst (match ?c with _ => _ end)) => is_var c; destruct c; try exact A end.
  all: first [apply B|exact D|exact A].
Qed.
Lemma tef_words : forall s, Forall sixteen_bit (read_tef_input s).
Proof.
  intros s. unfold read_tef_input. generalize (length (split_lines s)). intros fuel. generalize (split_lines s).
  induction fuel as [|f IH]; intros [|l r]; try constructor. cbn [tef_groups].
  pose proof (tef_group_words (l :: r) (g_disableOffsets Group_default) default_words) as W. change (readTEF_loop (l :: r) _) with (readTEFGroup (l :: r)) in W.
  destruct (readTEFGroup (l :: r)) as [g rest]. constructor; [exact W|apply IH].
Qed.
