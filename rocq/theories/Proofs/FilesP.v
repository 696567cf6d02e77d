(* Files: what the station keeps of them, as a function of the groups decoded and of their lines. *)
From Verif.Model Require Import Util Group Options Json Rft Tmc Station Channel.
From Verif.Spec Require Import JsonText Base64 Session Identity History Files.
From Verif.Proofs Require Import Tac Numerals JsonP Schema StationP TextP CleanP UpdateP SessionP LineP FrameP ChannelP LinesP HistoryP ShowP TraceP KeysP GetP FieldsP StringP FileP PsP TraceLP.

Local Open Scope string_scope.
Local Open Scope N_scope.
Local Open Scope list_scope.

(* --- the words of a group --- *)
Lemma fn_sweep : forallb (fun fn => Bool.eqb (N.land fn 0x30 =? 0x20) (fn / 16 =? 2) && (N.land fn 0xF =? fn mod 16)) (nseq 0 64) = true.
Proof. vm_compute. reflexivity. Qed.
Lemma fn_bits : forall fn, fn < 64 -> (N.land fn 0x30 =? 0x20) = (fn / 16 =? 2) /\ N.land fn 0xF = fn mod 16.
Proof.
  intros fn L. pose proof (forallb_In _ _ fn fn_sweep (nseq_In 64 0 fn ltac:(lia) ltac:(lia))) as X. cbv beta in X. apply andb_prop in X. destruct X as [X1 X2].
  apply eqb_prop in X1. apply N.eqb_eq in X2. split; assumption.
Qed.

Definition is_seg (b1 : N) : bool := b1 / 4096 =? 2.
Definition is_size (b1 b3 : N) : bool := (b1 / 16 =? 0x800) && (b3 / 4096 =? 0).

Lemma word_fn : forall b1, getBits 6 b1 8 = (b1 / 256) mod 64.
Proof. intros. rewrite getBits_arith. reflexivity. Qed.
Lemma word_fid : forall b1, getBits 2 b1 14 = (b1 / 16384) mod 4.
Proof. intros. rewrite getBits_arith. reflexivity. Qed.
Lemma seg_word : forall b1, b1 < 65536 -> (getBits 2 b1 14 =? 0) && (N.land (getBits 6 b1 8) 0x30 =? 0x20) = is_seg b1.
Proof.
  intros b1 L. rewrite word_fid, word_fn. destruct (fn_bits ((b1 / 256) mod 64) ltac:(lia)) as [-> _]. unfold is_seg.
  destruct (N.eqb_spec (b1 / 4096) 2), (N.eqb_spec ((b1 / 16384) mod 4) 0), (N.eqb_spec ((b1 / 256) mod 64 / 16) 2); cbn [andb]; try reflexivity; exfalso; lia.
Qed.
Lemma seg_pipe : forall b1, b1 < 65536 -> N.land (getBits 6 b1 8) 0xF = (b1 / 256) mod 16.
Proof. intros b1 L. rewrite word_fn. destruct (fn_bits ((b1 / 256) mod 64) ltac:(lia)) as [_ ->]. lia. Qed.

(* The file of pipe q: the newest first *)
Definition pipe_ok (h : list (Group * N * bytes)) (q : N) (f : RFTFile) : Prop :=
  (exists older, rft_data f = segments_since q (rft_prev_toggle f) h ++ older) /\
  rft_recv f = map fst (segments_since q (rft_prev_toggle f) h) /\
  rft_expected_size f = match last_size q h with Some n => n | None => 0 end /\
  rft_is_printed f = false /\
  (forall t, t <> rft_prev_toggle f -> segments_since q t h = []).
Definition files_inv (h : list (Group * N * bytes)) (st : Station) : Prop :=
  length (st_rft_file st) = 16%nat /\ forall q f, nth_error (st_rft_file st) (N.to_nat q) = Some f -> pipe_ok (rev h) q f.

Lemma new_files : forall q f, nth_error (repeat rft_init 16) (N.to_nat q) = Some f -> pipe_ok [] q f.
Proof.
  intros q f E. apply nth_error_In, repeat_spec in E. subst f. split; [exists []; reflexivity|]. repeat split.
Qed.
Lemma files_new : forall w, files_inv [] (Station_new w).
Proof. intros w. split; [reflexivity|]. exact new_files. Qed.
Lemma files_new_pi : forall w p, files_inv [] (Station_new_pi w p).
Proof. intros w p. split; [reflexivity|]. exact new_files. Qed.
Lemma had_rft : forall st g, st_rft_file (had st g) = st_rft_file st.
Proof. intros. unfold had. repeat match goal with |- context [if ?c then _ else _] => destruct c end; reflexivity. Qed.
Lemma files_had : forall h st g, files_inv h st -> files_inv h (had st g).
Proof. intros h st g I. unfold files_inv. rewrite had_rft. exact I. Qed.

(* A group that says nothing about pipe q *)
Lemma pipe_other : forall x ln h q f, (forall q' t a d, segment_in x = Some (q', t, a, d) -> q' <> q) -> (forall q' n, size_in x = Some (q', n) -> q' <> q \/ largest_file < n) ->
  pipe_ok h q f -> pipe_ok ((x, ln) :: h) q f.
Proof.
  intros x ln h q f Hs Hz P.
  assert (Es : forall t, segments_since q t ((x, ln) :: h) = segments_since q t h).
  { intros t. cbn [segments_since]. destruct (segment_in x) as [[[[q' t'] a] d]|]; [|reflexivity]. replace (q' =? q) with false by (symmetry; apply N.eqb_neq; eapply Hs; reflexivity). reflexivity. }
  assert (Ez : last_size q ((x, ln) :: h) = last_size q h).
  { cbn [last_size]. destruct (size_in x) as [[q' n]|]; [|reflexivity]. destruct (Hz _ _ eq_refl) as [Q|Q].
    - apply N.eqb_neq in Q. rewrite Q. reflexivity.
    - apply N.leb_gt in Q. rewrite Q, andb_false_r. reflexivity. }
  unfold pipe_ok. rewrite Ez, !Es. destruct P as (A & B & C & D & E). repeat (split; [assumption|]). intros t Nt. rewrite Es. apply E, Nt.
Qed.

(* A segment: the file afterwards, if it is not shown, and if it is *)
Lemma newest_assoc : forall a l, newest a l = assoc a l.
Proof. intros a l. induction l as [|[b d] l IH]; [reflexivity|]. cbn [newest assoc]. rewrite N.eqb_sym, IH. reflexivity. Qed.

Lemma pipe_receive : forall h q f t a b2 b3 b4, pipe_ok h q f -> a < 32768 ->
  let f' := rft_receive f t a b2 b3 b4 in
  let d := [getBits 8 b2 0; getBits 8 b3 8; getBits 8 b3 0; getBits 8 b4 8; getBits 8 b4 0] in
  let segs := (a, d) :: segments_since q t h in
  rft_alloc f' = true /\ rft_prev_toggle f' = t /\ (exists older, rft_data f' = segs ++ older) /\ rft_recv f' = map fst segs /\
  rft_expected_size f' = match last_size q h with Some n => n | None => 0 end /\ rft_is_printed f' = false.
Proof.
  intros h q f t a b2 b3 b4 ((older & A) & B & C & D & E) L. cbv zeta. unfold rft_receive. cbv zeta. replace (a <? kMaxNumSegments) with true by (symmetry; apply N.ltb_lt; exact L).
  cbn [rft_alloc rft_prev_toggle rft_data rft_recv rft_expected_size rft_is_printed].
  destruct (N.eqb_spec t (rft_prev_toggle f)) as [->|Nt]; cbn [negb].
  - split; [reflexivity|]. split; [reflexivity|]. split; [exists older; rewrite A; reflexivity|]. rewrite B. repeat (split; [reflexivity || assumption|]). assumption.
  - rewrite (E t Nt). cbn [rft_clear rft_data rft_recv rft_expected_size rft_is_printed app map fst].
    split; [reflexivity|]. split; [reflexivity|]. split; [exists (rft_data f); reflexivity|]. repeat (split; [reflexivity || assumption|]). reflexivity.
Qed.

(* complete, and the contents *)
Lemma received_in : forall l i, existsb (N.eqb i) (map fst l) = match newest i l with Some _ => true | None => false end.
Proof.
  intros l i. induction l as [|[a d] l IH]; [reflexivity|]. cbn [map existsb newest fst]. rewrite N.eqb_sym. destruct (a =? i); [reflexivity|]. exact IH.
Qed.

Lemma newest_app : forall i l older d, newest i l = Some d -> newest i (l ++ older) = Some d.
Proof. intros i l older d. induction l as [|[a x] l IH]; [discriminate|]. cbn [app newest]. destruct (a =? i); [exact (fun E => E)|exact IH]. Qed.
Lemma newest_In : forall i l d, newest i l = Some d -> In (i, d) l.
Proof. intros i l d. induction l as [|[a x] l IH]; [discriminate|]. cbn [newest]. destruct (N.eqb_spec a i) as [->|]; [intros E; injection E as <-; left; reflexivity|intros E; right; apply IH, E]. Qed.
Lemma concat_nth : forall (L : list (list N)) i, Forall (fun d => length d = 5%nat) L -> nth_error (concat L) i = match nth_error L (i / 5) with Some d => nth_error d (i mod 5) | None => None end.
Proof.
  induction L as [|d L IH]; intros i F.
  - cbn [concat]. destruct i; destruct (_ / 5)%nat; reflexivity.
  - inversion F as [|? ? Ld F']; subst. cbn [concat]. destruct (Nat.lt_ge_cases i 5) as [Hi|Hi].
    + rewrite nth_error_app1 by lia. rewrite Nat.div_small, Nat.mod_small by exact Hi. reflexivity.
    + rewrite nth_error_app2 by lia. rewrite Ld, IH by exact F'. replace (i / 5)%nat with (S ((i - 5) / 5))%nat.
      2:{ replace i with (i - 5 + 1 * 5)%nat at 2 by lia. rewrite Nat.div_add by discriminate. lia. }
      cbn [nth_error]. replace ((i - 5) mod 5)%nat with (i mod 5)%nat; [reflexivity|].
      replace i with (i - 5 + 1 * 5)%nat at 1 by lia. rewrite Nat.mod_add by discriminate. reflexivity.
Qed.
Lemma nseq_nth : forall n s i, (i < n)%nat -> nth_error (nseq s n) i = Some (s + N.of_nat i).
Proof. induction n as [|n IH]; intros s i L; [lia|]. destruct i as [|i]; cbn [nseq nth_error]; [f_equal; lia|]. rewrite IH by lia. f_equal. lia. Qed.
Lemma nseq_len : forall n s, length (nseq s n) = n.
Proof. induction n as [|n IH]; intros s; [reflexivity|]. cbn [nseq length]. f_equal. apply IH. Qed.
Lemma concat_len : forall (L : list (list N)), Forall (fun d => length d = 5%nat) L -> length (concat L) = (5 * length L)%nat.
Proof. induction L as [|d L IH]; intros F; [reflexivity|]. inversion F; subst. cbn [concat length]. rewrite app_length, IH by assumption. lia. Qed.

Lemma nth_firstn : forall (A : Type) n (l : list A) i, (i < n)%nat -> nth_error (firstn n l) i = nth_error l i.
Proof. intros A. induction n as [|n IH]; intros l i L; [lia|]. destruct l as [|x l]; [destruct i; reflexivity|]. destruct i as [|i]; [reflexivity|]. cbn [firstn nth_error]. apply IH. lia. Qed.

Definition five (segs : list (N * list N)) : Prop := Forall (fun x => length (snd x) = 5%nat) segs.

Lemma contents_of : forall f segs older n, rft_data f = segs ++ older -> five segs ->
  (forall i, i < divideRoundingUp n 5 -> newest i segs <> None) -> bytes_from segs n (rft_contents f n).
Proof.
  intros f segs older n Ed F5 All. unfold rft_contents.
  set (k := divideRoundingUp n 5) in *. assert (Hk : n <= 5 * k /\ 5 * k < n + 5) by (unfold k, divideRoundingUp; lia).
  assert (Sg : forall i, i < k -> exists d, newest i segs = Some d /\ rft_segment f i = d /\ length d = 5%nat).
  { intros i Hi. destruct (newest i segs) as [d|] eqn:E; [|exfalso; exact (All i Hi E)]. exists d. split; [reflexivity|]. split.
    - unfold rft_segment. rewrite <- newest_assoc, Ed, (newest_app _ _ _ _ E). reflexivity.
    - apply newest_In in E. unfold five in F5. rewrite Forall_forall in F5. exact (F5 _ E). }
  assert (L5 : Forall (fun d => length d = 5%nat) (map (rft_segment f) (nseq 0 (N.to_nat k)))).
  { rewrite Forall_forall. intros d X. apply in_map_iff in X. destruct X as (i & <- & X). apply In_nth_error in X. destruct X as (m & X).
    assert (m < N.to_nat k)%nat. { assert (nth_error (nseq 0 (N.to_nat k)) m <> None) by congruence. apply nth_error_Some in H. rewrite nseq_len in H. exact H. }
    rewrite nseq_nth in X by assumption. assert (Hi : i < k) by (assert (0 + N.of_nat m = i) by congruence; lia). destruct (Sg i Hi) as (d & _ & -> & L). exact L. }
  split.
  - rewrite firstn_length, concat_len by exact L5. rewrite map_length, nseq_len. lia.
  - intros i Hi. destruct (Sg (i / 5) ltac:(lia)) as (d & E & Es & L). exists d. split; [exact E|].
    rewrite nth_firstn by lia. rewrite concat_nth by exact L5.
    replace (N.to_nat i / 5)%nat with (N.to_nat (i / 5)) by (rewrite N2Nat.inj_div; reflexivity). replace (N.to_nat i mod 5)%nat with (N.to_nat (i mod 5)) by (rewrite N2Nat.inj_mod by discriminate; reflexivity).
    rewrite nth_error_map, nseq_nth by lia. cbn [option_map]. rewrite N2Nat.id, N.add_0_l, Es. reflexivity.
Qed.

Definition complete (segs : list (N * list N)) (size : option N) (n : N) : Prop :=
  size = Some n /\ 0 < n /\ forall i, i < divideRoundingUp n 5 -> newest i segs <> None.
Lemma complete_true : forall f segs size, rft_alloc f = true -> rft_is_printed f = false -> rft_recv f = map fst segs ->
  rft_expected_size f = match size with Some n => n | None => 0 end ->
  (rft_hasNewCompleteFile f = true -> complete segs size (rft_expected_size f)) /\
  (forall n, complete segs size n -> rft_hasNewCompleteFile f = true /\ n = rft_expected_size f).
Proof.
  intros f segs size Al Pr Rc Ex. unfold rft_hasNewCompleteFile. rewrite Al, Pr. cbn [negb orb]. rewrite orb_false_r.
  assert (Fa : forall k, forallb (rft_received f) (nseq 0 (N.to_nat k)) = true <-> forall i, i < k -> newest i segs <> None).
  { intros k. rewrite forallb_forall. split.
    - intros X i Hi E. specialize (X i (nseq_In (N.to_nat k) 0 i ltac:(lia) ltac:(lia))). unfold rft_received in X. rewrite Rc, received_in, E in X. discriminate.
    - intros X i Hi. unfold rft_received. rewrite Rc, received_in. apply In_nth_error in Hi. destruct Hi as (m & Hi).
      assert (m < N.to_nat k)%nat. { assert (Y : nth_error (nseq 0 (N.to_nat k)) m <> None) by congruence. apply nth_error_Some in Y. rewrite nseq_len in Y. exact Y. }
      rewrite nseq_nth in Hi by assumption. assert (Hk : i < k) by (assert (0 + N.of_nat m = i) by congruence; lia).
      specialize (X i Hk). destruct (newest i segs); [reflexivity|contradiction]. }
  split.
  - destruct (N.eqb_spec (rft_expected_size f) 0) as [_|Nz]; [discriminate|]. intros X. destruct size as [n|]; [|lia]. subst.
    split; [f_equal; symmetry; exact Ex|]. split; [lia|]. apply Fa. exact X.
  - intros n (-> & Pn & All). rewrite Ex. split; [|reflexivity]. destruct (N.eqb_spec n 0) as [E0|_]; [lia|]. apply Fa. exact All.
Qed.

(* --- the group decoder --- *)
Lemma upd_nth : forall (A : Type) (l l' : list A) q x, arr_set l q x = Ok l' -> length l' = length l /\
  forall q', nth_error l' (N.to_nat q') = if q' =? q then Some x else nth_error l (N.to_nat q').
Proof.
  intros A l l' q x E. unfold arr_set in E. destruct (N.ltb_spec q (N.of_nat (length l))) as [L|]; [|discriminate]. injection E as <-.
  split; [apply StringP.list_set_length|]. intros q'. rewrite HistoryP.list_set_nth by lia.
  destruct (N.eqb_spec q' q) as [->|Nq]; [rewrite Nat.eqb_refl; reflexivity|]. replace (N.to_nat q =? N.to_nat q')%nat with false by (symmetry; apply Nat.eqb_neq; lia). reflexivity.
Qed.
Lemma get_nth : forall (A : Type) (l : list A) q x, arr_get l q = Ok x -> nth_error l (N.to_nat q) = Some x.
Proof. intros A l q x E. unfold arr_get in E. destruct (nth_error _ _); [congruence|discriminate]. Qed.

Definition words (g : Group) : Prop := g_get g BLOCK1 < 65536 /\ g_get g BLOCK2 < 65536 /\ g_get g BLOCK3 < 65536 /\ g_get g BLOCK4 < 65536.

(* A segment *)
Lemma decode_segment : forall h st g j st' j' q, words g -> decodeC_rft st g q j = Ok (st', j') -> jget contents j = None ->
  (forall f, nth_error (st_rft_file st) (N.to_nat q) = Some f -> pipe_ok h q f) ->
  let t := (g_get g BLOCK1 / 128) mod 2 in let a := (g_get g BLOCK1 mod 128) * 256 + g_get g BLOCK2 / 256 in
  let d := [g_get g BLOCK2 mod 256; g_get g BLOCK3 / 256; g_get g BLOCK3 mod 256; g_get g BLOCK4 / 256; g_get g BLOCK4 mod 256] in
  let segs := (a, d) :: segments_since q t h in
  exists f', arr_set (st_rft_file st) q f' = Ok (st_rft_file st') /\
    jget ["rft"; "data"; "pipe"] j' = Some (JN q) /\
    rft_prev_toggle f' = t /\ rft_is_printed f' = false /\ rft_expected_size f' = match last_size q h with Some n => n | None => 0 end /\
    ((exists n f1, complete segs (last_size q h) n /\ (exists older, rft_data f1 = segs ++ older) /\ jget contents j' = Some (JStr (asBase64 (rft_contents f1 n))) /\ rft_recv f' = []) \/
     ((forall n, ~ complete segs (last_size q h) n) /\ (exists older, rft_data f' = segs ++ older) /\ jget contents j' = None /\ rft_recv f' = map fst segs)).
Proof.
  intros h st g j st' j' q (W1 & W2 & W3 & W4) E Nc P t a d segs. unfold decodeC_rft in E. cbv zeta in E.
  assert (Et : getBits 1 (g_get g BLOCK1) 7 = t) by (rewrite getBits_arith; reflexivity).
  assert (Ea : getBits2 15 (g_get g BLOCK1) (g_get g BLOCK2) 8 = a).
  { rewrite getBits2_arith by assumption. unfold a. change (2 ^ 16) with 65536. change (2 ^ 8) with 256. change (2 ^ 15) with 32768. lia. }
  assert (Ed : [getBits 8 (g_get g BLOCK2) 0; getBits 8 (g_get g BLOCK3) 8; getBits 8 (g_get g BLOCK3) 0; getBits 8 (g_get g BLOCK4) 8; getBits 8 (g_get g BLOCK4) 0] = d).
  { unfold d. rewrite !getBits_arith. change (2 ^ 0) with 1. change (2 ^ 8) with 256. rewrite !N.div_1_r. rewrite (N.mod_small (_ / 256)), (N.mod_small (g_get g BLOCK4 / 256)) by lia. reflexivity. }
  assert (La : a < 32768) by (unfold a; lia).
  rewrite Et, Ea in E.
  unbind E. unbind E. unbind E. unbind E. unbind E. unbind E.
  assert (N1 : jget contents y = None). { match type of B with match ?x with _ => _ end = _ => destruct x end; [|congruence]. got. exact Nc. }
  assert (N4 : jget contents y4 = None) by (got; exact N1).
  assert (Pp : jget ["rft"; "data"; "pipe"] y4 = Some (JN q)) by got.
  apply get_nth in B3. destruct (pipe_receive h q y3 t a (g_get g BLOCK2) (g_get g BLOCK3) (g_get g BLOCK4) (P _ B3) La) as (Al & Tg & (older & Da) & Rc & Sz & Pr). rewrite Ed in Da, Rc. fold segs in Da, Rc.
  set (f1 := rft_receive y3 t a (g_get g BLOCK2) (g_get g BLOCK3) (g_get g BLOCK4)) in *.
  destruct (complete_true f1 segs (last_size q h) Al Pr Rc Sz) as [C1 C2].
  unbind E. destruct y5 as [f2 j2]. unbind E. injection E as <- <-. exists f2. split; [exact B6|].
  destruct (rft_hasNewCompleteFile f1).
  - unfold rft_getBase64Data in B5. unbind B5. injection B5 as <- <-.
    split; [erewrite jset_other; [|eassumption|reflexivity]; exact Pp|]. cbn [rft_clear rft_prev_toggle rft_is_printed rft_expected_size rft_recv].
    split; [exact Tg|]. split; [reflexivity|]. split; [exact Sz|]. left. exists (rft_expected_size f1), f1. split; [apply C1; reflexivity|]. split; [exists older; exact Da|].
    split; [|reflexivity]. eapply jset_same. eassumption.
  - injection B5 as <- <-. split; [exact Pp|]. split; [exact Tg|]. split; [exact Pr|]. split; [exact Sz|]. right. split; [intros n X; destruct (C2 n X); discriminate|].
    split; [exists older; exact Da|]. split; [exact N4|exact Rc].
Qed.

(* An assignment *)
Lemma decode_assign : forall h st g j st' j' q, words g -> decodeC_assign st g q j = Ok (st', j') -> q < 64 ->
  (forall q f, nth_error (st_rft_file st) (N.to_nat q) = Some f -> pipe_ok h q f) ->
  length (st_rft_file st') = length (st_rft_file st) /\
  (jget contents j' = jget contents j) /\
  forall q' f, nth_error (st_rft_file st') (N.to_nat q') = Some f ->
    exists f0, nth_error (st_rft_file st) (N.to_nat q') = Some f0 /\ rft_data f = rft_data f0 /\ rft_recv f = rft_recv f0 /\ rft_is_printed f = rft_is_printed f0 /\ rft_prev_toggle f = rft_prev_toggle f0 /\
      rft_expected_size f = (let n := (g_get g BLOCK3 mod 4) * 65536 + g_get g BLOCK4 in
        if (q' =? q) && (q <? 16) && (g_get g BLOCK3 / 4096 =? 0) && (n <=? largest_file) then n else rft_expected_size f0).
Proof.
  intros h st g j st' j' q (W1 & W2 & W3 & W4) E Lq P. unfold decodeC_assign in E. cbv zeta in E.
  unbind E. unbind E. unbind E.
  assert (Gj : jget contents y1 = jget contents j) by (got; reflexivity).
  assert (Same : forall s l, st_rft_file s = st_rft_file st -> l = st_rft_file s -> length l = length (st_rft_file st)) by (intros s l -> ->; reflexivity).
  assert (Keep : (q <? 16) && (g_get g BLOCK3 / 4096 =? 0) = false -> forall q' f, nth_error (st_rft_file st) (N.to_nat q') = Some f -> exists f0, nth_error (st_rft_file st) (N.to_nat q') = Some f0 /\ rft_data f = rft_data f0 /\ rft_recv f = rft_recv f0 /\ rft_is_printed f = rft_is_printed f0 /\ rft_prev_toggle f = rft_prev_toggle f0 /\
      rft_expected_size f = (let n := (g_get g BLOCK3 mod 4) * 65536 + g_get g BLOCK4 in
        if (q' =? q) && (q <? 16) && (g_get g BLOCK3 / 4096 =? 0) && (n <=? largest_file) then n else rft_expected_size f0)).
  { intros K q' f X. exists f. repeat (split; [reflexivity || exact X|]). cbv zeta. rewrite <- (andb_assoc _ (q <? 16)), K, andb_false_r. reflexivity. }
  assert (Ev : getBits 4 (g_get g BLOCK3) 12 = g_get g BLOCK3 / 4096). { rewrite getBits_arith. change (2 ^ 12) with 4096. change (2 ^ 4) with 16. lia. }
  rewrite Ev in E.
  destruct (q <? 16) eqn:Eq; cbn [andb] in *.
  2:{ unbind E. injection E as <- <-. split; [reflexivity|]. split; [rewrite <- Gj; got; reflexivity|]. apply Keep. reflexivity. }
  destruct (g_get g BLOCK3 / 4096 =? 0) eqn:E0.
  - unbind E. unbind E. unbind E. unbind E. unbind E. unbind E. injection E as <- <-. cbn [set_rft set_oda_pipe st_rft_file] in *.
    apply get_nth in B2. destruct (upd_nth _ _ _ _ _ B3) as [Ln Nt]. split; [exact Ln|]. split; [rewrite <- Gj; got; reflexivity|].
    intros q' f X. rewrite Nt in X. destruct (N.eqb_spec q' q) as [->|Nq]; cbn [andb].
    + injection X as <-. exists y2. split; [exact B2|].
      assert (En : getBits2 18 (g_get g BLOCK3) (g_get g BLOCK4) 0 = (g_get g BLOCK3 mod 4) * 65536 + g_get g BLOCK4).
      { rewrite getBits2_arith by assumption. change (2 ^ 0) with 1. change (2 ^ 16) with 65536. change (2 ^ 18) with 262144. rewrite N.div_1_r. lia. }
      rewrite En. cbv zeta. unfold rft_setSize, rft_setCRCFlag. change (kMaxNumSegments * 5) with largest_file. destruct (_ <=? largest_file); repeat split.
    + exists f. repeat (split; [reflexivity || exact X|]). reflexivity.
  - destruct (g_get g BLOCK3 / 4096 =? 1).
    + unbind E. unbind E. unbind E. cbn [set_rft set_oda_pipe st_rft_file] in *. apply get_nth in B2. destruct (upd_nth _ _ _ _ _ B4) as [Ln Nt].
      assert (Ef : exists x, st_rft_file st' = y4 /\ (jget contents j' = jget contents y1 \/ x = tt)).
      { exists tt. destruct (_ =? 0) in E; [unbind E; injection E as <- <-; split; [reflexivity|right; reflexivity]|]. destruct (_ || _) in E; [unbind E; unbind E; unbind E; injection E as <- <-; split; [reflexivity|right; reflexivity]|].
        unbind E. injection E as <- <-. split; [reflexivity|right; reflexivity]. }
      destruct Ef as (_ & Ef & _). rewrite Ef. split; [exact Ln|]. split.
      * rewrite <- Gj. destruct (_ =? 0) in E; [unbind E; injection E as _ <-; got; reflexivity|]. destruct (_ || _) in E; [unbind E; unbind E; unbind E; injection E as _ <-; got; reflexivity|].
        unbind E. injection E as _ <-. unfold debug in *. got. reflexivity.
      * intros q' f X. rewrite Nt in X. rewrite andb_false_r. cbn [andb]. destruct (N.eqb_spec q' q) as [->|Nq].
        -- injection X as <-. exists y2. split; [exact B2|]. unfold rft_receiveCRC in B3. destruct (_ <? kMaxNumCRCs); [|discriminate]. injection B3 as <-. repeat split.
        -- exists f. repeat (split; [reflexivity || exact X|]). reflexivity.
    + destruct (8 <=? _); unbind E; injection E as <- <-; (split; [reflexivity|]); (split; [rewrite <- Gj; got; reflexivity|]); apply Keep; reflexivity.
Qed.

(* --- one group --- *)
Definition not_none {A : Type} (x : option A) : bool := match x with Some _ => true | None => false end.

Lemma no_member : forall k p j, jget [k] j = None -> jget (k :: p) j = None.
Proof. intros k p j X. cbn [jget] in *. destruct j; try reflexivity. destruct (obj_find k _); [discriminate|reflexivity]. Qed.

Lemma since_none : forall h q t x ln, segment_in x = None -> segments_since q t ((x, ln) :: h) = segments_since q t h.
Proof. intros h q t x ln E. cbn [segments_since]. rewrite E. reflexivity. Qed.
Lemma size_none : forall h q x ln, size_in x = None -> last_size q ((x, ln) :: h) = last_size q h.
Proof. intros h q x ln E. cbn [last_size]. rewrite E. reflexivity. Qed.

Lemma group_same : forall h st st' x ln, files_inv h st -> st_rft_file st' = st_rft_file st -> segment_in x = None -> size_in x = None -> files_inv (h ++ [(x, ln)]) st'.
Proof.
  intros h st st' x ln (L & P) E Es Ez. split; [rewrite E; exact L|]. intros q f X. rewrite E in X. rewrite rev_app_distr. cbn [rev app].
  apply pipe_other; [intros; congruence|intros; congruence|exact (P _ _ X)].
Qed.

Lemma pipe_lt : forall (l : list RFTFile) q f, length l = 16%nat -> nth_error l (N.to_nat q) = Some f -> q < 16.
Proof. intros l q f L E. assert (X : nth_error l (N.to_nat q) <> None) by congruence. apply nth_error_Some in X. lia. Qed.

Definition seg_result (h : list (Group * N * bytes)) (x : Group * N) (j : json) : Prop :=
  match segment_in x with
  | None => jget contents j = None
  | Some (q, t, a, d) =>
    let segs := (a, d) :: segments_since q t (rev h) in
    (exists n f1, complete segs (last_size q (rev h)) n /\ (exists older, rft_data f1 = segs ++ older) /\ jget contents j = Some (JStr (asBase64 (rft_contents f1 n)))) \/
    ((forall n, ~ complete segs (last_size q (rev h)) n) /\ jget contents j = None)
  end.

Lemma files_group : forall env o h st now c g w st' j, env_ok env -> files_inv h st -> st_ok st -> received_group (now, g, w) -> bler_ok (prepared o now c g w) ->
  decoded env o st (prepared o now c g w) = Ok (st', j) ->
  seg_result h (g, w) j /\ forall ln, (type_c g w = true -> shows_file ln = not_none (jget contents j)) -> files_inv (h ++ [(g, w, ln)]) st'.
Proof.
  intros env o h st now c g w st' j He Inv So R Bl D.
  destruct (type_c g w) eqn:T.
  2:{ assert (Es : segment_in (g, w) = None) by (unfold segment_in; rewrite T; reflexivity).
      assert (Ez : size_in (g, w) = None) by (unfold size_in; rewrite T; reflexivity).
      assert (Cv : g_has_type (prepared o now c g w) = true -> Version_eqb (gt_version (g_type (prepared o now c g w))) VC = false).
      { rewrite prepared_has_type, prepared_type. unfold type_c in T. destruct (w =? 0); [|discriminate]. cbn [negb orb] in T. intros Ht. rewrite Ht in T. exact T. }
      split.
      - unfold seg_result. rewrite Es. apply no_member. eapply decoded_absent; try eassumption; [reflexivity|]. intros Ht. specialize (Cv Ht).
        unfold type_keys. cbv zeta. rewrite Cv. unfold app_keys. repeat match goal with |- context [if ?b then _ else _] => destruct b; try reflexivity | |- context [find_type ?u ?v] => destruct (find_type u v); try reflexivity end.
      - intros ln _. pose proof (decoded_frame env o st _ _ D) as Fr. cbn [fst] in Fr.
        eapply group_same; [exact Inv| |exact Es|exact Ez].
        unfold frame in Fr. do 14 destruct Fr as [_ Fr]. rewrite <- (had_rft st (prepared o now c g w)). apply Fr.
        destruct (g_has_type (prepared o now c g w)) eqn:Ht; [|reflexivity]. specialize (Cv eq_refl). unfold group_fields. rewrite Cv.
        unfold off, app_fields. repeat match goal with |- context [if ?b then _ else _] => destruct b; try reflexivity | |- context [find_type ?u ?v] => destruct (find_type u v); try reflexivity end. }
  assert (Ht : g_has_type (prepared o now c g w) = true).
  { rewrite prepared_has_type. unfold type_c in T. destruct (w =? 0); [|reflexivity]. cbn [negb orb] in T. apply andb_prop in T. apply T. }
  assert (Vc : Version_eqb (gt_version (g_type (prepared o now c g w))) VC = true).
  { rewrite prepared_type. unfold type_c in T. destruct (w =? 0); [|reflexivity]. cbn [negb orb] in T. apply andb_prop in T. apply T. }
  unfold decoded in D. rewrite Ht in D. unfold decodeByType in D. cbv zeta in D. rewrite Vc in D.
  set (g' := prepared o now c g w) in *. set (hd := JObj (header env o st g')) in *.
  assert (Nc : jget contents hd = None). { apply no_member. unfold hd. cbn [jget]. rewrite header_no; [reflexivity|exact Bl|reflexivity]. }
  assert (G1 : g_get g' BLOCK1 = blk_data (g_b1 g)) by apply prepared_get.
  assert (G2 : g_get g' BLOCK2 = blk_data (g_b2 g)) by apply prepared_get.
  assert (G3 : g_get g' BLOCK3 = blk_data (g_b3 g)) by apply prepared_get.
  assert (G4 : g_get g' BLOCK4 = blk_data (g_b4 g)) by apply prepared_get.
  destruct R as (_ & L1 & L2 & L3 & L4). change (2 ^ 16) with 65536 in *.
  assert (W : words g') by (unfold words; rewrite G1, G2, G3, G4; auto).
  assert (Inv' : files_inv h (had st g')) by (apply files_had; exact Inv). clear Inv.
  assert (Plain : forall st1, st_rft_file st1 = st_rft_file (had st g') -> segment_in (g, w) = None -> size_in (g, w) = None -> jget contents j = None -> st1 = st' ->
    seg_result h (g, w) j /\ forall ln, (true = true -> shows_file ln = not_none (jget contents j)) -> files_inv (h ++ [(g, w, ln)]) st').
  { intros st1 Ef Es Ez Nj <-. split; [unfold seg_result; rewrite Es; exact Nj|]. intros ln _. eapply group_same; eassumption. }
  unfold decodeC in D. cbv zeta in D.
  assert (Rc : negb (g_has g' BLOCK1) || negb (g_has g' BLOCK2) || negb (g_has g' BLOCK3) || negb (g_has g' BLOCK4) = negb (all_received g)).
  { unfold all_received, g_has. unfold g'. rewrite !prepared_block. cbn [g_block]. rewrite !negb_andb. reflexivity. }
  rewrite Rc in D. destruct (all_received g) eqn:Ar; cbn [negb] in D.
  2:{ injection D as <- <-. apply (Plain (had st g')); try reflexivity; [unfold segment_in; rewrite T, Ar; reflexivity|unfold size_in; rewrite T, Ar; reflexivity|exact Nc]. }
  assert (SegE : segment_in (g, w) = if is_seg (blk_data (g_b1 g)) then Some ((blk_data (g_b1 g) / 256) mod 16, (blk_data (g_b1 g) / 128) mod 2, (blk_data (g_b1 g) mod 128) * 256 + blk_data (g_b2 g) / 256,
             [blk_data (g_b2 g) mod 256; blk_data (g_b3 g) / 256; blk_data (g_b3 g) mod 256; blk_data (g_b4 g) / 256; blk_data (g_b4 g) mod 256]) else None).
  { unfold segment_in. rewrite T, Ar. reflexivity. }
  assert (SizE : size_in (g, w) = if is_size (blk_data (g_b1 g)) (blk_data (g_b3 g)) then Some (blk_data (g_b1 g) mod 16, (blk_data (g_b3 g) mod 4) * 65536 + blk_data (g_b4 g)) else None).
  { unfold size_in. rewrite T, Ar. cbn [andb]. unfold is_size. destruct (_ / 16 =? 0x800); reflexivity. }
  rewrite G1 in D. set (b1 := blk_data (g_b1 g)) in *.
  destruct ((getBits 2 b1 14 =? 0) && (getBits 6 b1 8 =? 0)) eqn:E0.
  { unbind D. injection D as <- <-. apply andb_prop in E0. destruct E0 as [E1 E2]. apply N.eqb_eq in E1, E2. rewrite word_fid in E1. rewrite word_fn in E2.
    apply (Plain (had st g')); try reflexivity.
    - rewrite SegE. replace (is_seg b1) with false; [reflexivity|]. symmetry. apply N.eqb_neq. lia.
    - rewrite SizE. unfold is_size. replace (b1 / 16 =? 2048) with false; [reflexivity|]. symmetry. apply N.eqb_neq. lia.
    - unfold debug in *. got. exact Nc. }
  rewrite (seg_word b1 L1) in D. destruct (is_seg b1) eqn:Eg.
  { (* a segment *)
    rewrite (seg_pipe b1 L1) in D.
    destruct (decode_segment (rev h) (had st g') g' hd st' j _ W D Nc (fun f => proj2 Inv' _ f)) as (f' & Af & _ & Tg & Pr & Sz & Cs).
    rewrite G1, G2, G3, G4 in *. fold b1 in Tg, Cs |- *. set (q := (b1 / 256) mod 16) in *. set (t := (b1 / 128) mod 2) in *.
    set (a := (b1 mod 128) * 256 + blk_data (g_b2 g) / 256) in *. set (d := [blk_data (g_b2 g) mod 256; blk_data (g_b3 g) / 256; blk_data (g_b3 g) mod 256; blk_data (g_b4 g) / 256; blk_data (g_b4 g) mod 256]) in *.
    split.
    - unfold seg_result. rewrite SegE. cbv zeta. destruct Cs as [(n & f1 & X1 & X2 & X3 & _)|(X1 & _ & X2 & _)]; [left; exists n, f1; auto|right; auto].
    - intros ln Sh. specialize (Sh eq_refl). destruct (upd_nth _ _ _ _ _ Af) as [Ln Nt]. split; [rewrite Ln; apply Inv'|].
      intros q' f X. rewrite Nt in X. rewrite rev_app_distr. cbn [rev app].
      assert (Zn : size_in (g, w) = None). { rewrite SizE. unfold is_size, is_seg in *. apply N.eqb_eq in Eg. replace (b1 / 16 =? 2048) with false; [reflexivity|]. symmetry. apply N.eqb_neq. lia. }
      destruct (N.eqb_spec q' q) as [->|Nq].
      + injection X as <-. unfold pipe_ok. rewrite (size_none _ _ _ _ Zn).
        assert (Ss : forall t0, segments_since q t0 ((g, w, ln) :: rev h) = if shows_file ln then [] else if t =? t0 then (a, d) :: segments_since q t0 (rev h) else []).
        { intros t0. cbn [segments_since]. rewrite SegE, N.eqb_refl. reflexivity. }
        rewrite !Ss, Tg, Sh.
        destruct Cs as [(n & f1 & X1 & X2 & X3 & X4)|(X1 & X2 & X3 & X4)].
        * rewrite X3. cbn [not_none]. split; [exists (rft_data f'); reflexivity|]. split; [rewrite X4; reflexivity|]. split; [exact Sz|]. split; [exact Pr|]. intros t0 _. rewrite Ss, Sh, X3. reflexivity.
        * rewrite X3. cbn [not_none]. rewrite N.eqb_refl. split; [exact X2|]. split; [exact X4|]. split; [exact Sz|]. split; [exact Pr|]. intros t0 Nt0. rewrite Ss, Sh, X3. cbn [not_none].
          replace (t =? t0) with false; [reflexivity|]. symmetry. apply N.eqb_neq. congruence.
      + apply pipe_other; [|intros; congruence|exact (proj2 Inv' _ _ X)]. intros q1 t1 a1 d1 Eq1. assert (q1 = q) by congruence. congruence. }
  assert (Sn : segment_in (g, w) = None) by (rewrite SegE; reflexivity).
  assert (Np : negb ((getBits 2 b1 14 =? 2) && (getBits 6 b1 8 =? 0) && (getBits 2 b1 6 + 1 =? 1)) = true -> size_in (g, w) = None).
  { intros Ng. rewrite SizE. unfold is_size. destruct (N.eqb_spec (b1 / 16) 0x800) as [Eb|]; [|reflexivity]. exfalso.
    rewrite word_fid, word_fn, getBits_arith in Ng. change (2 ^ 6) with 64 in Ng. change (2 ^ 2) with 4 in Ng.
    replace ((b1 / 16384) mod 4) with 2 in Ng by lia. replace ((b1 / 256) mod 64) with 0 in Ng by lia. replace ((b1 / 64) mod 4) with 0 in Ng by lia. discriminate Ng. }
  destruct (getBits 2 b1 14 =? 1) eqn:E1.
  { unbind D. unbind D. injection D as <- <-. apply (Plain (had st g')); try reflexivity; [exact Sn| |got; exact Nc].
    apply Np. apply N.eqb_eq in E1. rewrite E1. reflexivity. }
  destruct ((getBits 2 b1 14 =? 2) && (getBits 6 b1 8 =? 0)) eqn:E2.
  2:{ unbind D. unbind D. injection D as <- <-. apply (Plain (had st g')); try reflexivity; [exact Sn|apply Np; reflexivity|unfold debug in *; got; exact Nc]. }
  destruct (getBits 2 b1 6 + 1 =? 1) eqn:E3.
  2:{ unbind D. injection D as <- <-. apply (Plain (had st g')); try reflexivity; [exact Sn|apply Np; reflexivity|unfold debug in *; got; exact Nc]. }
  (* an assignment *)
  assert (Eq : getBits 6 b1 0 = b1 mod 64) by (rewrite getBits_arith; change (2 ^ 0) with 1; rewrite N.div_1_r; reflexivity). rewrite Eq in D.
  destruct (decode_assign (rev h) (had st g') g' hd st' j _ W D ltac:(lia) (fun q f => proj2 Inv' q f)) as (Ln & Jc & Nt).
  rewrite G3, G4 in Nt. split; [unfold seg_result; rewrite Sn, Jc; exact Nc|].
  intros ln _. split; [rewrite Ln; apply Inv'|]. intros q f X. rewrite rev_app_distr. cbn [rev app].
  destruct (Nt q f X) as (f0 & X0 & Y1 & Y2 & Y3 & Y4 & Y5). cbv zeta in Y5. pose proof (proj2 Inv' _ _ X0) as (P1 & P2 & P3 & P4 & P5).
  unfold pipe_ok. rewrite !(since_none _ _ _ _ _ Sn), Y1, Y2, Y3, Y4, Y5. split; [exact P1|]. split; [exact P2|]. split.
  - cbn [last_size]. rewrite SizE. apply andb_prop in E2. destruct E2 as [E2a E2b]. apply N.eqb_eq in E2a, E2b, E3. rewrite word_fid in E2a. rewrite word_fn in E2b. rewrite getBits_arith in E3. change (2 ^ 6) with 64 in E3. change (2 ^ 2) with 4 in E3.
    unfold is_size. destruct (N.ltb_spec (b1 mod 64) 16) as [L16|G16].
    + replace (b1 / 16 =? 2048) with true by (symmetry; apply N.eqb_eq; lia). cbn [andb]. replace (b1 mod 16) with (b1 mod 64) by lia. rewrite (N.eqb_sym q). rewrite andb_true_r.
      destruct (blk_data (g_b3 g) / 4096 =? 0); [rewrite andb_true_r|rewrite andb_false_r; exact P3]. match goal with |- context [?u <=? largest_file] => destruct (u <=? largest_file) end; destruct (b1 mod 64 =? q); cbn [andb]; first [reflexivity|exact P3].
    + replace (b1 / 16 =? 2048) with false by (symmetry; apply N.eqb_neq; lia). rewrite !andb_false_r. exact P3.
  - split; [exact P4|]. intros t Nt'. rewrite (since_none _ _ _ _ _ Sn). apply P5. exact Nt'.
Qed.

(* --- one line --- *)
Definition heard (x : Group * N * bytes) : Prop := let '(g, w, _) := x in received_group (0%Z, g, w).
Definition files_at (h : list (Group * N * bytes)) (st : Station) : Prop := files_inv h st /\ Forall heard h.

Lemma segment_bytes : forall g w q t a d, received_group (0%Z, g, w) -> segment_in (g, w) = Some (q, t, a, d) -> length d = 5%nat /\ Forall (fun b => b < 256) d.
Proof.
  intros g w q t a d (_ & L1 & L2 & L3 & L4) E. change (2 ^ 16) with 65536 in *. unfold segment_in in E. destruct (_ && _); [|discriminate]. assert (Ed : [blk_data (g_b2 g) mod 256; blk_data (g_b3 g) / 256; blk_data (g_b3 g) mod 256; blk_data (g_b4 g) / 256; blk_data (g_b4 g) mod 256] = d) by congruence. subst d.
  split; [reflexivity|]. repeat constructor; lia.
Qed.
Lemma since_In : forall q t a d h, In (a, d) (segments_since q t h) -> exists g w ln, In (g, w, ln) h /\ segment_in (g, w) = Some (q, t, a, d).
Proof.
  intros q t a d h. induction h as [|[[g w] ln] h IH]; cbn [segments_since]; [intros []|].
  assert (Later : In (a, d) (segments_since q t h) -> exists g0 w0 ln0, In (g0, w0, ln0) ((g, w, ln) :: h) /\ segment_in (g0, w0) = Some (q, t, a, d)).
  { intros X. destruct (IH X) as (g0 & w0 & l0 & X1 & X2). exists g0, w0, l0. split; [right; exact X1|exact X2]. }
  destruct (segment_in (g, w)) as [[[[q' t'] a'] d']|] eqn:E; [|exact Later].
  destruct (N.eqb_spec q' q) as [->|]; [|exact Later]. destruct (shows_file ln); [intros []|]. destruct (N.eqb_spec t' t) as [->|]; [|intros []].
  intros [X|X]; [|exact (Later X)]. injection X as -> ->. exists g, w, ln. split; [left; reflexivity|exact E].
Qed.
Lemma segs_fine : forall h g w q t a d, Forall heard h -> received_group (0%Z, g, w) -> segment_in (g, w) = Some (q, t, a, d) ->
  Forall (fun x => length (snd x) = 5%nat /\ Forall (fun b => b < 256) (snd x)) ((a, d) :: segments_since q t (rev h)).
Proof.
  intros h g w q t a d F R E. constructor; [exact (segment_bytes _ _ _ _ _ _ R E)|]. rewrite Forall_forall. intros [a' d'] X. destruct (since_In _ _ _ _ _ X) as (g' & w' & l' & X1 & X2).
  rewrite <- in_rev in X1. rewrite Forall_forall in F. exact (segment_bytes _ _ _ _ _ _ (F _ X1) X2).
Qed.
Lemma file_bytes : forall segs n file, bytes_from segs n file -> Forall (fun x : N * list N => length (snd x) = 5%nat /\ Forall (fun b => b < 256) (snd x)) segs -> Forall (fun b => b < 256) file.
Proof.
  intros segs n file (L & B) F. rewrite Forall_forall. intros b X. apply In_nth_error in X. destruct X as (i & X).
  assert (Li : (i < length file)%nat) by (apply nth_error_Some; congruence).
  destruct (B (N.of_nat i) ltac:(lia)) as (d & E1 & E2). rewrite Nat2N.id, X in E2. apply newest_In in E1. rewrite Forall_forall in F. destruct (F _ E1) as [_ F2].
  rewrite Forall_forall in F2. apply F2. symmetry in E2. exact (nth_error_In _ _ E2).
Qed.

Lemma raw_type_c : forall o now c g w st, type_c g w = true -> raw_group st (prepared o now c g w) = false.
Proof.
  intros o now c g w st T. assert (Vc : gt_version (g_type (prepared o now c g w)) = VC).
  { rewrite prepared_type. unfold type_c in T. destruct (w =? 0); [|reflexivity]. cbn [negb orb] in T. apply andb_prop in T. destruct T as [_ T]. destruct (gt_version _); try discriminate. reflexivity. }
  unfold raw_group. cbv zeta. rewrite Vc. cbn [Version_eqb negb andb]. destruct (find_type _ _); [rewrite andb_false_r|]; reflexivity.
Qed.

Definition line_shows (h : list (Group * N * bytes)) (x : Group * N) (line : bytes) : Prop :=
  match segment_in x with
  | None => line_at contents line = None
  | Some (q, t, a, d) =>
    let segs := (a, d) :: segments_since q t (rev h) in
    (exists n file text, complete segs (last_size q (rev h)) n /\ says line contents (VStr text) /\ decode64 text = Some file /\ bytes_from segs n file) \/
    ((forall n, ~ complete segs (last_size q (rev h)) n) /\ line_at contents line = None)
  end.

Section Run.
  Variable env : Env.
  Variable o : Options.
  Hypothesis H : host_ok env.
  Hypothesis HT : host_text env.
  Hypothesis OJ : o_output_type o = OutJSON.

  Lemma files_step : forall h st now c g w st' j ln, files_at h st -> st_ok st -> received_group (now, g, w) ->
    bler_ok (prepared o now c g w) -> decoded env o st (prepared o now c g w) = Ok (st', j) ->
    (raw_group st (prepared o now c g w) = false \/ g_has_type (prepared o now c g w) = false -> forall q, line_at q ln = option_map (value_of (env_float env)) (jget q j)) ->
    files_at (h ++ [(g, w, ln)]) st'.
  Proof.
    intros h st now c g w st' j ln [I F] So R Bl D Ln. split.
    - apply (proj2 (files_group env o h st now c g w st' j (proj1 (host_env env H)) I So R Bl D)). intros T. unfold shows_file. rewrite Ln by (left; apply raw_type_c; exact T).
      destruct (jget contents j); reflexivity.
    - apply Forall_app. split; [exact F|]. constructor; [exact R|constructor].
  Qed.
  Lemma files_at_new : forall w, files_at [] (Station_new w).
  Proof. intros w. split; [apply files_new|constructor]. Qed.
  Lemma files_at_new_pi : forall w p, files_at [] (Station_new_pi w p).
  Proof. intros w p. split; [apply files_new_pi|constructor]. Qed.
  Lemma files_at_had : forall h st g, files_at h st -> files_at h (had st g).
  Proof. intros h st g [I F]. split; [apply files_had; exact I|exact F]. Qed.

  Lemma file_line : forall h now c g w c' l, ch_fine c -> received_group (now, g, w) -> files_at h (tuned c (prepared o now c g w)) ->
    st_ok (tuned c (prepared o now c g w)) -> processGroup env o now c g w = Ok (c', Some l) -> line_shows h (g, w) l.
  Proof.
    intros h now c g w c' l Hc R [I F] So E.
    destruct (process_cases env o now c g w c' (Some l) H OJ (proj1 Hc) (proj1 R) E) as [[X _]|(l' & j & X & Dd & Pj)]; [discriminate|]. injection X as <-.
    destruct (files_group env o h _ now c g w _ j (proj1 (host_env env H)) I So R (proj2 (prepared_bler o now c g w (proj1 Hc) (proj1 R))) Dd) as [Sr _].
    assert (Sd : forall v, line_at contents l = Some v -> option_map (value_of (env_float env)) (jget contents j) = Some v).
    { intros v X. eapply says_decoded; try eassumption. discriminate. }
    unfold seg_result in Sr. unfold line_shows. destruct (segment_in (g, w)) as [[[[q t] a] d]|] eqn:Es.
    - assert (T : type_c g w = true) by (unfold segment_in in Es; destruct (type_c g w); [reflexivity|discriminate]).
      destruct (process_shows env o now c g w c' l H (host_text_txt env HT) OJ Hc (proj1 R) E (or_introl (raw_type_c _ _ _ _ _ _ T))) as (j' & D' & Lj). rewrite Dd in D'. injection D' as <-.
      cbv zeta in Sr |- *. destruct Sr as [(n & f1 & Cm & (older & Od) & Gj)|[Nc Gj]].
      + left. pose proof (segs_fine h g w q t a d F R Es) as Fs.
        assert (F5 : five ((a, d) :: segments_since q t (rev h))). { unfold five. eapply Forall_impl; [|exact Fs]. intros x X. exact (proj1 X). }
        pose proof (contents_of f1 _ older n Od F5 (proj2 (proj2 Cm))) as Bf.
        exists n, (rft_contents f1 n), (asBase64 (rft_contents f1 n)). split; [exact Cm|]. split; [unfold says; rewrite Lj, Gj; reflexivity|]. split; [|exact Bf].
        apply decode_base64. exact (file_bytes _ _ _ Bf Fs).
      + right. split; [exact Nc|]. rewrite Lj, Gj. reflexivity.
    - destruct (line_at contents l) as [v|]; [|reflexivity]. specialize (Sd v eq_refl). rewrite Sr in Sd. discriminate.
  Qed.

  (* the last line of a run *)
  Lemma last_file : forall gs now g w w0 c out line, Forall received_group (gs ++ [(now, g, w)]) ->
    run_groups env o (Channel_new o w0) (gs ++ [(now, g, w)]) = Ok (c, out ++ [Some line]) ->
    exists old h, lines_in gs out = old ++ h /\ line_shows h (g, w) line.
  Proof.
    intros gs now g w w0 c out line F E. apply Forall_app in F. destruct F as [F1 F2]. inversion F2 as [|? ? Rg _]; subst.
    destruct (run_snoc _ _ _ _ _ _ _ _ _ E) as (c1 & out1 & l1 & E1 & E2 & Eo). apply app_inj_tail in Eo. destruct Eo as [<- <-].
    destruct (lines_history files_at env o H HT OJ files_at_new files_at_new_pi files_at_had files_step gs w0 c1 out F1 E1) as (old & h & D & Hh).
    pose proof (run_fine env o gs _ _ _ H (host_text_txt env HT) (created_fine o _ (or_introl (ex_intro _ w0 eq_refl))) F1 E1) as Fc.
    destruct (tuned_cases c1 (prepared o now c1 g w)) as [Et|(p & Et)].
    - exists old, h. split; [exact D|]. eapply file_line; try eassumption; rewrite Et; [exact Hh|apply Fc].
    - exists (lines_in gs out), []. split; [rewrite app_nil_r; reflexivity|]. eapply file_line; try eassumption; rewrite Et; [apply files_at_new_pi|apply station_new_pi_ok].
  Qed.
End Run.

(* --- a whole file; histories newest first --- *)
Lemma since_app : forall q t B, segments_since q t B = [] -> forall A a d, In (a, d) (segments_since q t (A ++ B)) ->
  exists g w ln, In (g, w, ln) A /\ segment_in (g, w) = Some (q, t, a, d).
Proof.
  intros q t B Nb A a d. induction A as [|[[g w] ln] A IH]; cbn [app segments_since]; [rewrite Nb; intros []|].
  assert (Later : In (a, d) (segments_since q t (A ++ B)) -> exists g0 w0 ln0, In (g0, w0, ln0) ((g, w, ln) :: A) /\ segment_in (g0, w0) = Some (q, t, a, d)).
  { intros X. destruct (IH X) as (g0 & w0 & l0 & X1 & X2). exists g0, w0, l0. split; [right; exact X1|exact X2]. }
  destruct (segment_in (g, w)) as [[[[q' t'] a'] d']|] eqn:E; [|exact Later].
  destruct (N.eqb_spec q' q) as [->|]; [|exact Later]. destruct (shows_file ln); [intros []|]. destruct (N.eqb_spec t' t) as [->|]; [|intros []].
  intros [X|X]; [|exact (Later X)]. injection X as -> ->. exists g, w, ln. split; [left; reflexivity|exact E].
Qed.
Lemma since_all : forall q t A B, (forall g w ln t' a d, In (g, w, ln) A -> segment_in (g, w) = Some (q, t', a, d) -> t' = t /\ shows_file ln = false) ->
  forall g w ln a d, In (g, w, ln) A -> segment_in (g, w) = Some (q, t, a, d) -> newest a (segments_since q t (A ++ B)) <> None.
Proof.
  intros q t A B. induction A as [|[[g0 w0] l0] A IH]; intros F g w ln a d X E; [destruct X|]. cbn [app segments_since].
  assert (Fl : forall g w ln t' a d, In (g, w, ln) A -> segment_in (g, w) = Some (q, t', a, d) -> t' = t /\ shows_file ln = false) by (intros; eapply F; [right|]; eassumption).
  destruct (segment_in (g0, w0)) as [[[[q' t'] a'] d']|] eqn:E0.
  - destruct (N.eqb_spec q' q) as [->|Nq].
    + destruct (F _ _ _ _ _ _ (or_introl eq_refl) E0) as [-> ->]. rewrite N.eqb_refl. cbn [newest].
      destruct X as [X|X].
      * assert (a' = a) by (assert (g0 = g) by congruence; assert (w0 = w) by congruence; congruence). subst a'. rewrite N.eqb_refl. discriminate.
      * destruct (a' =? a); [discriminate|]. exact (IH Fl _ _ _ _ _ X E).
    + destruct X as [X|X]; [|exact (IH Fl _ _ _ _ _ X E)]. exfalso. assert (g0 = g) by congruence. assert (w0 = w) by congruence. congruence.
  - destruct X as [X|X]; [|exact (IH Fl _ _ _ _ _ X E)]. exfalso. assert (g0 = g) by congruence. assert (w0 = w) by congruence. congruence.
Qed.
Lemma size_app : forall q n A B, n <= largest_file -> (forall g w ln m, In (g, w, ln) A -> size_in (g, w) = Some (q, m) -> m = n) ->
  (last_size q (A ++ B) = Some n \/ last_size q (A ++ B) = last_size q B) /\
  ((exists g w ln, In (g, w, ln) A /\ size_in (g, w) = Some (q, n)) -> last_size q (A ++ B) = Some n).
Proof.
  intros q n A B Ln. induction A as [|[[g0 w0] l0] A IH]; intros F.
  - split; [right; reflexivity|]. intros (g & w & ln & [] & _).
  - cbn [app last_size]. assert (Fl : forall g w ln m, In (g, w, ln) A -> size_in (g, w) = Some (q, m) -> m = n) by (intros; eapply F; [right|]; eassumption).
    destruct (IH Fl) as [I1 I2].
    destruct (size_in (g0, w0)) as [[q' m]|] eqn:E0.
    + destruct (N.eqb_spec q' q) as [->|Nq]; cbn [andb].
      * rewrite (F _ _ _ _ (or_introl eq_refl) E0). replace (n <=? largest_file) with true by (symmetry; apply N.leb_le; exact Ln). split; [left; reflexivity|intros _; reflexivity].
      * split; [exact I1|]. intros (g & w & ln & [X|X] & E); [exfalso; assert (g0 = g) by congruence; assert (w0 = w) by congruence; congruence|]. apply I2. exists g, w, ln. auto.
    + split; [exact I1|]. intros (g & w & ln & [X|X] & E); [exfalso; assert (g0 = g) by congruence; assert (w0 = w) by congruence; congruence|]. apply I2. exists g, w, ln. auto.
Qed.

Lemma same_file : forall segs file file', bytes_from segs (N.of_nat (length file)) file' -> (forall a d, In (a, d) segs -> segment_of file a d) -> file' = file.
Proof.
  intros segs file file' [L B] F. apply Nat2N.inj in L. apply (nth_ext _ _ 0 0 L). intros i Hi.
  assert (E : nth_error file' i = nth_error file i).
  { destruct (B (N.of_nat i) ltac:(lia)) as (d & E1 & E2). rewrite Nat2N.id in E2. rewrite E2. apply newest_In in E1. destruct (F _ _ E1) as [_ F2].
    rewrite (F2 (N.of_nat i mod 5)) by lia. f_equal. lia. }
  destruct (nth_error file' i) as [u|] eqn:Eu; [|apply nth_error_None in Eu; lia]. rewrite (nth_error_nth _ _ _ Eu). symmetry in E. rewrite (nth_error_nth _ _ _ E). reflexivity.
Qed.

Lemma fresh : forall q t gs h0 L, new_file q t gs L -> (forall g w ln, In (g, w, ln) (h0 ++ L) -> In (g, w) gs) -> segments_since q t (rev (h0 ++ L)) = [].
Proof.
  intros q t gs h0 L [No|(t' & line & Ls & Or)] Sub.
  - assert (X : forall h, (forall g w ln, In (g, w, ln) h -> no_segment q (g, w)) -> segments_since q t h = []).
    { induction h as [|[[g w] ln] h IH]; intros F; [reflexivity|]. cbn [segments_since]. destruct (segment_in (g, w)) as [[[[q' t'] a] d]|] eqn:E.
      - destruct (N.eqb_spec q' q) as [->|]; [exfalso; exact (F _ _ _ (or_introl eq_refl) _ _ _ E)|]. apply IH. intros. eapply F. right. eassumption.
      - apply IH. intros. eapply F. right. eassumption. }
    apply X. intros g w ln Hi. rewrite <- in_rev in Hi. rewrite Forall_forall in No. apply No. eapply Sub. exact Hi.
  - rewrite rev_app_distr. induction (rev L) as [|[[g w] ln] h IH]; [discriminate|]. cbn [app segments_since]. cbn [last_segment] in Ls.
    destruct (segment_in (g, w)) as [[[[q' t1] a] d]|]; [|exact (IH Ls)]. destruct (q' =? q); [|exact (IH Ls)]. injection Ls as -> ->.
    destruct (shows_file line); [reflexivity|]. destruct (N.eqb_spec t' t) as [->|]; [|reflexivity]. exfalso. destruct Or as [Or|Or]; [apply Or; reflexivity|discriminate].
Qed.
Lemma sized : forall q n gs h0 L, no_other_size q n gs L -> (forall g w ln, In (g, w, ln) (h0 ++ L) -> In (g, w) gs) ->
  last_size q (rev (h0 ++ L)) = None \/ last_size q (rev (h0 ++ L)) = Some n.
Proof.
  intros q n gs h0 L [No|Ls] Sub.
  - left. assert (X : forall h, (forall g w ln, In (g, w, ln) h -> no_size q (g, w)) -> last_size q h = None).
    { induction h as [|[[g w] ln] h IH]; intros F; [reflexivity|]. cbn [last_size]. destruct (size_in (g, w)) as [[q' m]|] eqn:E.
      - destruct (N.eqb_spec q' q) as [->|]; [exfalso; exact (F _ _ _ (or_introl eq_refl) _ E)|]. apply IH. intros. eapply F. right. eassumption.
      - apply IH. intros. eapply F. right. eassumption. }
    apply X. intros g w ln Hi. rewrite <- in_rev in Hi. rewrite Forall_forall in No. apply No. eapply Sub. exact Hi.
  - right. rewrite rev_app_distr. induction (rev L) as [|[[g w] ln] h IH]; [discriminate|]. cbn [app last_size]. cbn [last_size] in Ls.
    destruct (size_in (g, w)) as [[q' m]|]; [|exact (IH Ls)]. destruct (_ && _); [exact Ls|exact (IH Ls)].
Qed.
Lemma size_suffix : forall q n h0 L, last_size q (rev L) = Some n -> last_size q (rev (h0 ++ L)) = Some n.
Proof.
  intros q n h0 L Ls. rewrite rev_app_distr. induction (rev L) as [|[[g w] ln] h IH]; [discriminate|]. cbn [app last_size]. cbn [last_size] in Ls.
  destruct (size_in (g, w)) as [[q' m]|]; [|exact (IH Ls)]. destruct (_ && _); [exact Ls|exact (IH Ls)].
Qed.
Lemma lines_sub : forall gs out g w ln, In (g, w, ln) (lines_in gs out) -> In (g, w) (groups_of gs).
Proof.
  unfold lines_in, groups_of. induction gs as [|[[now g0] w0] gs IH]; intros out g w ln X; [destruct X|]. destruct out as [|[l|] out]; [destruct X| |]; cbn [combine flat_map app map fst snd] in X |- *.
  - destruct X as [X|X]; [left; congruence|right; exact (IH _ _ _ _ X)].
  - right. exact (IH _ _ _ _ X).
Qed.
Lemma segment_type : forall x q t a d, segment_in x = Some (q, t, a, d) -> type_c (fst x) (snd x) = true.
Proof. intros [g w] q t a d E. unfold segment_in in E. cbn [fst snd]. destruct (type_c g w); [reflexivity|discriminate]. Qed.
Lemma size_type : forall x q n, size_in x = Some (q, n) -> type_c (fst x) (snd x) = true.
Proof. intros [g w] q n E. unfold size_in in E. cbn [fst snd]. destruct (type_c g w); [reflexivity|discriminate]. Qed.

Section Whole.
  Variable env : Env.
  Variable o : Options.
  Hypothesis H : host_ok env.
  Hypothesis HT : host_text env.
  Hypothesis OJ : o_output_type o = OutJSON.
  Variable p : N.

  Let steady := steady_lines files_at env o H HT OJ files_at_had (files_step env o H).

  (* every group of an additional stream is printed *)
  Lemma all_lines : forall gs c c' out g w, locked p c -> Forall (stays p) gs -> run_groups env o c gs = Ok (c', out) -> In (g, w) (groups_of gs) -> type_c g w = true ->
    exists ln, In (g, w, ln) (lines_in gs out).
  Proof.
    intros gs. induction gs as [|[[now g0] w0] gs IH] using rev_ind; intros c c' out g w L S E X T; [destruct X|].
    apply Forall_app in S. destruct S as [S1 S2]. inversion S2 as [|? ? R _]; subst.
    destruct (run_snoc _ _ _ _ _ _ _ _ _ E) as (c1 & out1 & line & E1 & E2 & ->). rewrite lines_in_app by (exact (run_length _ _ _ _ _ _ E1)).
    assert (L1 : locked p c1). { revert E1 S1 L. clear - OJ. revert c c1 out1. induction gs as [|[[now g] w] gs IH] using rev_ind; intros c c1 out1 E1 S1 L; [injection E1 as <- <-; exact L|].
      apply Forall_app in S1. destruct S1 as [S1 S2]. inversion S2 as [|? ? R _]; subst. destruct (run_snoc _ _ _ _ _ _ _ _ _ E1) as (c2 & out2 & line & E2 & E3 & ->).
      exact (locked_step _ _ _ _ _ _ _ _ _ OJ (IH _ _ _ E2 S1 L) R E3). }
    unfold groups_of in X. rewrite map_app in X. apply in_app_or in X. destruct X as [X|[X|[]]].
    - destruct (IH _ _ _ _ _ L S1 E1 X T) as (ln & Y). exists ln. apply in_or_app. left. exact Y.
    - cbn [fst snd] in X. assert (g0 = g) by congruence. assert (w0 = w) by congruence. subst g0 w0. destruct (type_c_printed env o OJ p now c1 g w c' line L1 T E2) as (l & ->). exists l. apply in_or_app. right. left. reflexivity.
  Qed.

  Variable q t : N.
  Variable file : list N.
  Hypothesis File : 0 < N.of_nat (length file) <= largest_file.

  (* one segment of the file *)
  Lemma one_line : forall h0 c gs now g w c' out line t' a d, ch_fine c -> locked p c -> files_at h0 (ch_station c) ->
    segments_since q t (rev h0) = [] -> (last_size q (rev h0) = None \/ last_size q (rev h0) = Some (N.of_nat (length file))) ->
    Forall received_group (gs ++ [(now, g, w)]) -> Forall (stays p) (gs ++ [(now, g, w)]) -> Forall (sends q t file) (groups_of (gs ++ [(now, g, w)])) ->
    run_groups env o c (gs ++ [(now, g, w)]) = Ok (c', out ++ [Some line]) -> segment_in (g, w) = Some (q, t', a, d) ->
    t' = t /\ let h := h0 ++ lines_in gs out in
    ((exists text, says line contents (VStr text) /\ decode64 text = Some file) \/
     (line_at contents line = None /\ forall n, ~ complete ((a, d) :: segments_since q t (rev h)) (last_size q (rev h)) n)).
  Proof.
    intros h0 c gs now g w c' out line t' a d Hc L I0 Nb Sz F S Sd E Es.
    apply Forall_app in F. destruct F as [F1 F2]. inversion F2 as [|? ? Rg _]; subst.
    apply Forall_app in S. destruct S as [S1 S2]. inversion S2 as [|? ? R _]; subst.
    unfold groups_of in Sd. rewrite map_app in Sd. apply Forall_app in Sd. destruct Sd as [D1 D2]. inversion D2 as [|? ? Dl _]; subst. cbn [fst snd] in Dl.
    destruct (run_snoc _ _ _ _ _ _ _ _ _ E) as (c1 & out1 & l1 & E1 & E2 & Eo). apply app_inj_tail in Eo. destruct Eo as [<- <-].
    destruct (steady p gs h0 c c1 out Hc L I0 F1 S1 E1) as (L1 & Hc1 & I1).
    pose proof (locked_tuned p c1 o now g w L1 R) as Tu.
    assert (Ls : line_shows (h0 ++ lines_in gs out) (g, w) line).
    { eapply file_line; try eassumption; rewrite Tu; [exact I1|apply Hc1]. }
    destruct (proj1 Dl _ _ _ Es) as [-> So]. split; [reflexivity|]. cbv zeta. unfold line_shows in Ls. rewrite Es in Ls. cbv zeta in Ls.
    destruct Ls as [(n & file' & text & Cm & Sy & De & Bf)|[Nc Ln]]; [left|right; split; [exact Ln|exact Nc]].
    exists text. split; [exact Sy|]. rewrite De. f_equal.
    assert (In2 : forall g w ln, In (g, w, ln) (rev (lines_in gs out)) -> sends q t file (g, w)).
    { intros g1 w1 ln X. rewrite <- in_rev in X. apply lines_sub in X. rewrite Forall_forall in D1. exact (D1 _ X). }
    rewrite rev_app_distr in *.
    assert (n = N.of_nat (length file)).
    { destruct Cm as [Cm _]. destruct (size_app q (N.of_nat (length file)) (rev (lines_in gs out)) (rev h0) (proj2 File)) as [[X|X] _]; [intros; eapply (proj2 (In2 _ _ _ H0)); eassumption| |]; [congruence|].
      rewrite X in Cm. destruct Sz as [Sz|Sz]; congruence. }
    subst n. eapply same_file; [exact Bf|]. intros a' d' [X|X]; [injection X as <- <-; exact So|].
    destruct (since_app q t (rev h0) Nb _ _ _ X) as (g1 & w1 & l1 & X1 & X2). exact (proj2 (proj1 (In2 _ _ _ X1) _ _ _ X2)).
  Qed.

  Lemma whole_file : forall h0 c gs now g w c' out t1 a1 d1, ch_fine c -> locked p c -> files_at h0 (ch_station c) ->
    segments_since q t (rev h0) = [] -> (last_size q (rev h0) = None \/ last_size q (rev h0) = Some (N.of_nat (length file))) ->
    Forall received_group (gs ++ [(now, g, w)]) -> Forall (stays p) (gs ++ [(now, g, w)]) -> Forall (sends q t file) (groups_of (gs ++ [(now, g, w)])) ->
    run_groups env o c (gs ++ [(now, g, w)]) = Ok (c', out) -> segment_in (g, w) = Some (q, t1, a1, d1) ->
    (last_size q (rev h0) = Some (N.of_nat (length file)) \/ In (q, N.of_nat (length file)) (flat_map (fun x => match size_in x with Some s => [s] | None => [] end) (groups_of gs))) ->
    (forall i, 5 * i < N.of_nat (length file) -> exists x d, In x (groups_of (gs ++ [(now, g, w)])) /\ segment_in x = Some (q, t, i, d)) ->
    exists g' w' line text t' a d, In (g', w', line) (lines_in (gs ++ [(now, g, w)]) out) /\ segment_in (g', w') = Some (q, t', a, d) /\ says line contents (VStr text) /\ decode64 text = Some file.
  Proof.
    intros h0 c gs now g w c' out t1 a1 d1 Hc L I0 Nb Sz F S Sd E Es Kn Cov.
    destruct (run_snoc _ _ _ _ _ _ _ _ _ E) as (c1 & out1 & l1 & E1 & E2 & ->).
    pose proof F as F0. apply Forall_app in F0. destruct F0 as [F1 F2]. inversion F2 as [|? ? Rg _]; subst.
    pose proof S as S0. apply Forall_app in S0. destruct S0 as [S1 S2]. inversion S2 as [|? ? R _]; subst.
    destruct (steady p gs h0 c c1 out1 Hc L I0 F1 S1 E1) as (L1 & Hc1 & I1).
    destruct (type_c_printed env o OJ p now c1 g w c' l1 L1 (segment_type _ _ _ _ _ Es) E2) as (line & ->).
    destruct (one_line h0 c gs now g w c' out1 line t1 a1 d1 Hc L I0 Nb Sz F S Sd E Es) as [-> [(text & Sy & De)|[Ln Nc]]].
    { exists g, w, line, text, t, a1, d1. split; [|auto]. rewrite lines_in_app by (exact (run_length _ _ _ _ _ _ E1)). apply in_or_app. right. left. reflexivity. }
    (* the last line does not show it: an earlier one did *)
    assert (Ex : exists g' w' ln t' a d, In (g', w', ln) (lines_in gs out1) /\ segment_in (g', w') = Some (q, t', a, d) /\ shows_file ln = true).
    { destruct (existsb (fun x => match segment_in (fst x) with Some (q', _, _, _) => (q' =? q) && shows_file (snd x) | None => false end) (lines_in gs out1)) eqn:Ee.
      - apply existsb_exists in Ee. destruct Ee as ([[g' w'] ln] & X & Y). cbn [fst snd] in Y. destruct (segment_in (g', w')) as [[[[q' t'] a] d]|] eqn:E'; [|discriminate].
        apply andb_prop in Y. destruct Y as [Y1 Y2]. apply N.eqb_eq in Y1. subst q'. exists g', w', ln, t', a, d. auto.
      - exfalso. apply (Nc (N.of_nat (length file))).
        assert (In2 : forall g w ln, In (g, w, ln) (rev (lines_in gs out1)) -> sends q t file (g, w)).
        { intros g2 w2 ln X. rewrite <- in_rev in X. apply lines_sub in X. rewrite Forall_forall in Sd. apply Sd. unfold groups_of. rewrite map_app. apply in_or_app. left. exact X. }
        rewrite rev_app_distr. split; [|split; [lia|]].
        + destruct (size_app q (N.of_nat (length file)) (rev (lines_in gs out1)) (rev h0) (proj2 File)) as [Y1 Y2]; [intros g2 w2 ln2 m X Y; exact (proj2 (In2 _ _ _ X) _ Y)|].
          destruct Kn as [Kn|Kn]; [destruct Y1 as [Y1|Y1]; [exact Y1|congruence]|]. apply Y2. apply in_flat_map in Kn. destruct Kn as ([g2 w2] & X & Y).
          destruct (size_in (g2, w2)) as [s|] eqn:E'; [|destruct Y]. destruct Y as [->|[]]. destruct (all_lines gs c c1 out1 g2 w2 L S1 E1 X (size_type _ _ _ E')) as (ln & Z). exists g2, w2, ln. split; [rewrite <- in_rev; exact Z|exact E'].
        + intros i Hi. assert (Hi5 : 5 * i < N.of_nat (length file)) by (unfold divideRoundingUp in Hi; lia). destruct (Cov i Hi5) as ([g2 w2] & d & X & Y).
          cbn [newest]. destruct (N.eqb_spec a1 i) as [|Na]; [discriminate|]. unfold groups_of in X. rewrite map_app in X. apply in_app_or in X. destruct X as [X|[X|[]]].
          2:{ cbn [fst snd] in X. exfalso. rewrite X in Es. congruence. }
          destruct (all_lines gs c c1 out1 g2 w2 L S1 E1 X (segment_type _ _ _ _ _ Y)) as (ln & Z).
          eapply since_all; [|rewrite <- in_rev; exact Z|exact Y]. intros g3 w3 l3 t3 a3 d3 X3 Y3. split; [exact (proj1 (proj1 (In2 _ _ _ X3) _ _ _ Y3))|].
          rewrite <- in_rev in X3. destruct (shows_file l3) eqn:Sh; [|reflexivity].
          assert (Tr : existsb (fun x => match segment_in (fst x) with Some (q', _, _, _) => (q' =? q) && shows_file (snd x) | None => false end) (lines_in gs out1) = true); [|congruence].
          apply existsb_exists. exists (g3, w3, l3). split; [exact X3|]. cbn [fst snd]. rewrite Y3, N.eqb_refl, Sh. reflexivity. }
    destruct Ex as (g' & w' & ln & t' & a & d & X & Y & Sh).
    (* its content *)
    assert (Sp : exists u now' v o1, gs = u ++ (now', g', w') :: v /\ exists c2, run_groups env o c (u ++ [(now', g', w')]) = Ok (c2, o1 ++ [Some ln])).
    { clear - X E1. revert c out1 E1 X. induction gs as [|[[now g0] w0] gs IH]; intros c out1 E1 X; [destruct X|]. cbn [run_groups] in E1.
      destruct (processGroup env o now c g0 w0) as [[c2 l2]| |] eqn:Ep; cbn [bind] in E1; try discriminate. destruct (run_groups env o c2 gs) as [[c3 o3]| |] eqn:Er; cbn [bind] in E1; try discriminate.
      assert (c3 = c1 /\ out1 = l2 :: o3) as [-> ->] by (split; congruence).
      assert (Y : (l2 = Some ln /\ g0 = g' /\ w0 = w') \/ In (g', w', ln) (lines_in gs o3)).
      { unfold lines_in in X. cbn [combine flat_map] in X. apply in_app_or in X. destruct X as [X|X]; [left|right; exact X]. destruct l2 as [l|]; [|destruct X]. destruct X as [X|[]]. repeat split; congruence. }
      destruct Y as [(-> & -> & ->)|Y].
      - exists [], now, gs, []. split; [reflexivity|]. exists c2. cbn [app run_groups]. rewrite Ep. reflexivity.
      - destruct (IH _ _ Er Y) as (u & now' & v & o1 & -> & c4 & E4). exists ((now, g0, w0) :: u), now', v, (l2 :: o1). split; [reflexivity|]. exists c4. cbn [app run_groups]. rewrite Ep. cbn [bind]. rewrite E4. reflexivity. }
    destruct Sp as (u & now' & v & o1 & Eg & c2 & E3).
    assert (Pre : gs ++ [(now, g, w)] = (u ++ [(now', g', w')]) ++ v ++ [(now, g, w)]) by (rewrite Eg, <- !app_assoc; reflexivity).
    rewrite Pre in F, S, Sd. apply Forall_app in F. apply Forall_app in S. unfold groups_of in Sd. rewrite map_app in Sd. apply Forall_app in Sd.
    destruct (one_line h0 c u now' g' w' c2 o1 ln t' a d Hc L I0 Nb Sz (proj1 F) (proj1 S) (proj1 Sd) E3 Y) as [-> [(text & Sy & De)|[Ln' _]]].
    - exists g', w', ln, text, t, a, d. split; [|auto]. rewrite lines_in_app by (exact (run_length _ _ _ _ _ _ E1)). apply in_or_app. left. exact X.
    - exfalso. unfold shows_file in Sh. rewrite Ln' in Sh. discriminate.
  Qed.
End Whole.
