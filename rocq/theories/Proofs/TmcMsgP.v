(* Multi-group messages: what is assembled and what it means. *)
From Verif.Model Require Import Util Group Tables Json Freq RdsString Tmc.
From Verif.Spec Require Import Texts Apps Traffic.
From Verif.Proofs Require Import Tac Numerals TmcP.

Local Open Scope N_scope.
Local Open Scope list_scope.

(* ---- bits ---- *)
Lemma word_bits_of : forall n w, word_bits n w = bits_of n w.
Proof. induction n as [|n IH]; intros w; [reflexivity|]. cbn [word_bits bits_of]. rewrite IH, N.testbit_odd, N.shiftr_div_pow2. reflexivity. Qed.
Lemma bits_of_length : forall n w, length (bits_of n w) = n.
Proof. induction n as [|n IH]; intros w; cbn [bits_of length]; [reflexivity|]. rewrite IH. reflexivity. Qed.
Lemma mod_pow_succ : forall w k, w mod 2 ^ N.of_nat (S k) = N.b2n (N.odd (w / 2 ^ N.of_nat k)) * 2 ^ N.of_nat k + w mod 2 ^ N.of_nat k.
Proof.
  intros w k. rewrite Nat2N.inj_succ, N.pow_succ_r', (N.mul_comm 2), N.mod_mul_r by (try apply N.pow_nonzero; discriminate).
  rewrite <- N.bit0_mod. rewrite N.bit0_odd. lia.
Qed.
Lemma pop_loop : forall n v r acc, acc * 2 ^ N.of_nat n + v mod 2 ^ N.of_nat n < 65536 ->
  popBits_loop n (bits_of n v ++ r) acc = (acc * 2 ^ N.of_nat n + v mod 2 ^ N.of_nat n, r).
Proof.
  induction n as [|n IH]; intros v r acc H.
  - cbn [popBits_loop bits_of app]. change (2 ^ N.of_nat 0) with 1. rewrite N.mod_1_r. f_equal. lia.
  - cbn [popBits_loop bits_of app]. rewrite mod_pow_succ in *. rewrite Nat2N.inj_succ, N.pow_succ_r' in *.
    set (b := N.odd (v / 2 ^ N.of_nat n)) in *. set (P := 2 ^ N.of_nat n) in *.
    assert (HP : 1 <= P) by (unfold P; assert (2 ^ N.of_nat n <> 0) by (apply N.pow_nonzero; discriminate); lia).
    assert (Hb : N.b2n b <= 1) by (destruct b; cbn; lia).
    assert (Ha : 2 * acc + N.b2n b < 65536) by nia.
    assert (E : u16 (N.lor (u16 (N.shiftl acc 1)) (N.b2n b)) = 2 * acc + N.b2n b).
    { rewrite N.shiftl_mul_pow2. change (2 ^ 1) with 2. rewrite (N.mul_comm acc).
      assert (U : forall n, n < 65536 -> u16 n = n) by (intros n1 Hn; unfold u16; apply N.mod_small, Hn). rewrite (U (2 * acc)) by lia.
      replace (N.lor (2 * acc) (N.b2n b)) with (2 * acc + N.b2n b); [apply U, Ha|].
      destruct b; cbn [N.b2n]; [destruct acc; reflexivity|rewrite N.lor_0_r; lia]. }
    rewrite E, IH; [f_equal; nia|]. fold P. nia.
Qed.
Lemma pop_bits : forall n v r, (n <= 16)%nat -> v < 2 ^ N.of_nat n -> popBits (bits_of n v ++ r) (N.of_nat n) = (v, r).
Proof.
  intros n v r Hn Hv. unfold popBits. rewrite app_length, bits_of_length. replace (N.of_nat n <=? N.of_nat (n + length r)) with true by lia.
  rewrite Nat2N.id. assert (2 ^ N.of_nat n <= 2 ^ 16) by (apply N.pow_le_mono_r; [discriminate|lia]). change (2 ^ 16) with 65536 in H.
  rewrite pop_loop; rewrite N.mod_small by exact Hv; [f_equal|]; lia.
Qed.

(* ---- fields ---- *)
Lemma label_sizes : forall l, l <= 14 -> nth (N.to_nat l) field_size 0 = N.of_nat (label_size l) /\ (label_size l <= 16)%nat /\ ((3 <= label_size l)%nat \/ l = 14).
Proof.
  intros l Hl. assert (X : In l (nseq 0 15)) by (apply nseq_In; lia). cbn [nseq] in X.
  repeat (destruct X as [<-|X]; [split; [reflexivity|cbv; lia]|]). destruct X.
Qed.
Lemma label_size_le : forall l, (label_size l <= 16)%nat.
Proof.
  intros l. destruct (N.le_gt_cases l 14) as [Hl|Hl]; [apply label_sizes, Hl|]. unfold label_size. rewrite nth_overflow; [lia|]. cbn [length]. lia.
Qed.
Lemma zeros_bits : forall k n, (n <= k)%nat -> repeat false k = bits_of n 0 ++ repeat false (k - n).
Proof.
  intros k n H. replace k with (n + (k - n))%nat at 1 by lia. rewrite repeat_app. f_equal. clear. induction n as [|n IH]; [reflexivity|].
  cbn [repeat bits_of]. rewrite N.div_0_l by (apply N.pow_nonzero; discriminate). rewrite IH. reflexivity.
Qed.
Lemma split_zeros : forall fuel k, split_fields fuel (repeat false k) = [].
Proof.
  intros [|fuel] k; [reflexivity|]. cbn [split_fields]. destruct (N.ltb_spec 4 (N.of_nat (length (repeat false k)))) as [H|H]; [|reflexivity].
  rewrite repeat_length in H. rewrite (zeros_bits k 4) by lia. change 4 with (N.of_nat 4) at 1. rewrite pop_bits by (cbn; lia).
  change (nth (N.to_nat 0) field_size 0) with 3. destruct (_ <? _) eqn:E; [reflexivity|]. rewrite repeat_length in E.
  rewrite (zeros_bits (k - 4) 3) by lia. change 3 with (N.of_nat 3) at 1. rewrite pop_bits by (cbn; lia). reflexivity.
Qed.
(* Bits in which no field is found *)
Definition no_field (bits : list bool) : Prop := forall fuel, split_fields fuel bits = [].
Lemma cut_field : forall f n r, field_ok f -> (n < length (coded_field f))%nat -> no_field (firstn n (coded_field f ++ r)).
Proof.
  intros [l v] n r (Hl & Hv & _) Hn [|fuel]; [reflexivity|]. unfold coded_field in *. cbn [fst snd] in *. rewrite app_length, !bits_of_length in Hn. cbn [split_fields].
  assert (L : length (firstn n ((bits_of 4 l ++ bits_of (label_size l) v) ++ r)) = n) by (rewrite firstn_length, !app_length, !bits_of_length; lia). rewrite L.
  destruct (N.ltb_spec 4 (N.of_nat n)) as [H4|H4]; [|reflexivity].
  rewrite <- app_assoc, firstn_app, bits_of_length, firstn_all2 by (rewrite bits_of_length; lia).
  change 4 with (N.of_nat 4) at 1. rewrite pop_bits by (change (2 ^ N.of_nat 4) with 16; lia). destruct (label_sizes l Hl) as (Es & _ & _). rewrite Es.
  replace (_ <? _) with true; [reflexivity|]. symmetry. apply N.ltb_lt. rewrite firstn_length, app_length, bits_of_length. lia.
Qed.
Lemma split_fold : forall d tail0 fs fuel m, no_field tail0 -> Forall field_ok fs -> (length (flat_map coded_field fs ++ tail0) <= fuel)%nat ->
  fold_left (apply_field d) (split_fields fuel (flat_map coded_field fs ++ tail0)) m = fold_left (apply_field d) fs m.
Proof.
  intros d tail0 fs. induction fs as [|[l v] fs IH]; intros fuel m Nf F Hf.
  - cbn [flat_map app]. rewrite Nf. reflexivity.
  - inversion F as [|? ? [Hl [Hv N0]] F']; subst. cbn [fst snd] in *. cbn [flat_map] in *. unfold coded_field in Hf at 1. unfold coded_field at 1. cbn [fst snd] in *.
    destruct (label_sizes l Hl) as (Es & S16 & S3). rewrite !app_length, !bits_of_length in Hf.
    destruct fuel as [|fuel]; [lia|]. cbn [split_fields]. rewrite !app_length, !bits_of_length.
    set (tail := flat_map coded_field fs ++ tail0) in *.
    destruct (N.ltb_spec 4 (N.of_nat (4 + label_size l + length (flat_map coded_field fs) + length tail0))) as [H4|H4].
    + rewrite <- !app_assoc. fold tail. change 4 with (N.of_nat 4) at 1. rewrite pop_bits by (change (2 ^ N.of_nat 4) with 16; lia).
      rewrite Es, app_length, bits_of_length. replace (_ <? _) with false by lia. rewrite pop_bits by assumption.
      replace ((l =? 0) && (v =? 0)) with false.
      * replace (l <=? 14) with true by lia. cbn [fold_left]. apply IH; [exact Nf|exact F'|]. fold tail. unfold tail. rewrite app_length. lia.
      * symmetry. apply andb_false_iff. destruct (N.eqb_spec l 0) as [->|]; [|left; reflexivity]. right. apply N.eqb_neq. intros ->. apply N0. reflexivity.
    + assert (label_size l = 0%nat) as Z by lia. destruct S3 as [S3|E14]; [lia|]. rewrite E14 in *.
      assert (fs = []) as ->.
      { destruct fs as [|f fs]; [reflexivity|]. exfalso. cbn [flat_map] in H4. unfold coded_field in H4 at 1. rewrite !app_length, bits_of_length in H4. lia. }
      cbn [fold_left]. unfold apply_field. reflexivity.
Qed.
Lemma fields_count : forall fs, (4 * length fs <= length (flat_map coded_field fs))%nat.
Proof. induction fs as [|f fs IH]; [cbn; lia|]. cbn [flat_map length]. unfold coded_field at 1. rewrite !app_length, bits_of_length. lia. Qed.

(* What the fields do to a message *)
Definition urgency_steps (u : EventUrgency) (n : N) : EventUrgency :=
  match n mod 3, u with
  | 0, u => u
  | 1, UNone => UU | 1, UU => UX | 1, UX => UNone
  | _, UNone => UX | _, UU => UNone | _, UX => UU
  end.
Definition flipped (d : EventDirectionality) (n : N) : EventDirectionality :=
  if N.even n then d else match d with DSingle => DBoth | DBoth => DSingle end.
Definition or_else {A} (a b : option A) : option A := match a with Some _ => a | None => b end.
(* The quantities, each with the position of its event *)
Definition takes (d : TmcData) (ev : list N) (qu : list (N * N)) (size : N) : bool :=
  let last := N.of_nat (length ev) - 1 in
  negb (N.of_nat (length ev) =? 0) && negb (existsb (fun p => N.eqb last (fst p)) qu) &&
  ev_allows_quantifier (getEvent d (nth (N.to_nat last) ev 0)) &&
  (getQuantifierSize (ev_quantifier_type (getEvent d (nth (N.to_nat last) ev 0))) =? size).
Fixpoint quants (d : TmcData) (ev : list N) (qu : list (N * N)) (fs : list (N * N)) : list (N * N) :=
  match fs with
  | [] => qu
  | (l, v) :: r =>
      if l =? 9 then quants d (ev ++ [v]) qu r
      else if ((l =? 4) && takes d ev qu 5) || ((l =? 5) && takes d ev qu 8)
      then quants d ev (qu ++ [(N.of_nat (length ev) - 1, v)]) r
      else quants d ev qu r
  end.
Record means (d : TmcData) (m : Message) (fs : list (N * N)) (m' : Message) : Prop := mkMeans {
  mn_enc : m_is_encrypted m' = m_is_encrypted m; mn_was : m_was_encrypted m' = m_was_encrypted m;
  mn_dir : m_direction m' = m_direction m;
  mn_extent : m_extent m' = m_extent m + 8 * controls 6 fs + 16 * controls 7 fs;
  mn_events : m_events m' = m_events m ++ all_of 9 fs;
  mn_suppl : m_supplementary m' = m_supplementary m ++ all_of 6 fs;
  mn_div : m_diversion m' = m_diversion m ++ all_of 10 fs;
  mn_loc : m_location m' = m_location m; mn_eloc : m_encrypted_location m' = m_encrypted_location m;
  mn_complete : m_is_complete m' = m_is_complete m;
  mn_until : m_time_until m' = or_else (last_of 8 fs) (m_time_until m);
  mn_starts : m_time_starts m' = or_else (last_of 7 fs) (m_time_starts m);
  mn_speed : m_speed_limit m' = or_else (option_map (fun d => d * 5) (last_of 3 fs)) (m_speed_limit m);
  mn_dirn : m_directionality m' = flipped (m_directionality m) (controls 2 fs);
  mn_urg : m_urgency m' = urgency_steps (m_urgency m) (controls 0 fs + 2 * controls 1 fs);
  mn_quant : m_quantifiers m' = quants d (m_events m) (m_quantifiers m) fs }.

Lemma last_of_cons : forall l f fs, last_of l (f :: fs) = or_else (last_of l fs) (if fst f =? l then Some (snd f) else None).
Proof.
  intros l f fs. unfold last_of, all_of. cbn [flat_map]. rewrite rev_app_distr. destruct (rev (flat_map _ fs)); [|reflexivity].
  destruct (fst f =? l); reflexivity.
Qed.
Lemma controls_cons : forall c f fs, controls c (f :: fs) = (if (fst f =? 1) && (snd f =? c) then 1 else 0) + controls c fs.
Proof.
  intros c f fs. unfold controls, all_of. cbn [flat_map]. destruct (fst f =? 1); cbn [app andb]; [|lia]. cbn [filter].
  rewrite (N.eqb_sym c). destruct (snd f =? c); cbn [length]; lia.
Qed.
Lemma all_of_cons : forall l f fs, all_of l (f :: fs) = (if fst f =? l then [snd f] else []) ++ all_of l fs.
Proof. reflexivity. Qed.
Lemma urgency_add : forall u a b, urgency_steps (urgency_steps u a) b = urgency_steps u (a + b).
Proof.
  intros u a b. unfold urgency_steps. rewrite (N.add_mod a b 3) by discriminate.
  assert (Ha : a mod 3 < 3) by (apply N.mod_lt; discriminate). assert (Hb : b mod 3 < 3) by (apply N.mod_lt; discriminate).
  revert Ha Hb. generalize (a mod 3) (b mod 3). clear. intros a b Ha Hb.
  assert (A : a = 0 \/ a = 1 \/ a = 2) by lia. assert (B : b = 0 \/ b = 1 \/ b = 2) by lia.
  destruct A as [->|[->| ->]], B as [->|[->| ->]], u; reflexivity.
Qed.
Lemma flip_add : forall u a b, flipped (flipped u a) b = flipped u (a + b).
Proof. intros u a b. unfold flipped. rewrite N.even_add. destruct (N.even a), (N.even b), u; reflexivity. Qed.
Lemma or_else_assoc : forall A (a b c : option A), or_else (or_else a b) c = or_else a (or_else b c).
Proof. intros A [a|] b c; reflexivity. Qed.

Lemma apply_one : forall d m f, field_ok f -> m_extent m + 16 < 65536 -> means d m [f] (apply_field d m f).
Proof.
  intros d m [l v] (Hl & Hv & _) He. cbn [fst snd] in *.
  assert (X : In l (nseq 0 15)) by (apply nseq_In; lia). change (In l [0; 1; 2; 3; 4; 5; 6; 7; 8; 9; 10; 11; 12; 13; 14]) in X.
  assert (U : forall n, n <= 16 -> u16 (m_extent m + n) = m_extent m + n) by (intros n Hn; unfold u16; apply N.mod_small; lia).
  destruct X as [<-|[<-|X]].
  - constructor; unfold controls, last_of, all_of; cbn; rewrite ?app_nil_r, ?N.add_0_r; reflexivity.
  - change (v < 8) in Hv. assert (Y : In v (nseq 0 8)) by (apply nseq_In; lia). change (In v [0; 1; 2; 3; 4; 5; 6; 7]) in Y.
    repeat (destruct Y as [<-|Y]; [constructor; unfold controls, last_of, all_of; cbn; rewrite ?app_nil_r, ?N.add_0_r, ?U by discriminate; reflexivity|]). destruct Y.
  - repeat (destruct X as [<-|X]; [
      first [ constructor; unfold controls, last_of, all_of; cbn; rewrite ?app_nil_r, ?N.add_0_r; reflexivity
            | constructor; cbv beta iota zeta delta [apply_field]; cbn [quants N.eqb Pos.eqb andb orb]; rewrite ?orb_false_r; unfold takes; cbv zeta; match goal with |- context [if ?b then _ else _] => destruct b end; unfold controls, last_of, all_of; cbn; rewrite ?app_nil_r, ?N.add_0_r; reflexivity ]|]).
    destruct X.
Qed.
Lemma means_nil : forall d m, means d m [] m.
Proof. intros d m. constructor; unfold controls, last_of, all_of; cbn; rewrite ?app_nil_r, ?N.add_0_r; reflexivity. Qed.
Lemma means_cons : forall d m f fs m1 m2, means d m [f] m1 -> means d m1 fs m2 -> means d m (f :: fs) m2.
Proof.
  intros d m f fs m1 m2 [A1 A2 A3 A4 A5 A6 A7 A8 A9 A10 A11 A12 A13 A14 A15 A16] [B1 B2 B3 B4 B5 B6 B7 B8 B9 B10 B11 B12 B13 B14 B15 B16].
  assert (Z : forall c, controls c [] = 0) by reflexivity. assert (Zl : forall l, last_of l [] = None) by reflexivity.
  assert (Zo : forall (x : option N), or_else None x = x) by reflexivity.
  rewrite ?controls_cons, ?last_of_cons, ?all_of_cons, ?Z, ?Zl, ?Zo, ?N.add_0_r in *.
  constructor; rewrite ?controls_cons, ?last_of_cons, ?all_of_cons; try congruence.
  - rewrite B4, A4. lia.
  - rewrite B5, A5. cbn [all_of flat_map]. rewrite app_nil_r, app_assoc. reflexivity.
  - rewrite B6, A6. cbn [all_of flat_map]. rewrite app_nil_r, app_assoc. reflexivity.
  - rewrite B7, A7. cbn [all_of flat_map]. rewrite app_nil_r, app_assoc. reflexivity.
  - rewrite B11, A11, or_else_assoc. reflexivity.
  - rewrite B12, A12, or_else_assoc. reflexivity.
  - rewrite B13, A13. destruct (last_of 3 fs); reflexivity.
  - rewrite B14, A14, flip_add. f_equal.
  - rewrite B15, A15, urgency_add. f_equal. lia.
  - rewrite B16, A5, A16. unfold all_of. destruct f as [l v]. cbn [quants flat_map fst snd]. destruct (l =? 9); cbn [app]; rewrite ?app_nil_r; [reflexivity|].
    destruct (_ || _); reflexivity.
Qed.
Lemma apply_all : forall d fs m, Forall field_ok fs -> m_extent m + 16 * N.of_nat (length fs) < 65536 -> means d m fs (fold_left (apply_field d) fs m).
Proof.
  intros d fs. induction fs as [|f fs IH]; intros m F He; [apply means_nil|]. cbn [fold_left]. inversion F as [|? ? Of F']; subst. cbn [length] in He.
  pose proof (apply_one d m f Of ltac:(lia)) as M1. apply (means_cons _ _ _ _ _ _ M1). apply IH; [exact F'|].
  rewrite (mn_extent _ _ _ _ M1), !controls_cons. change (controls 6 []) with 0. change (controls 7 []) with 0.
  destruct (fst f =? 1); cbn [andb]; [|lia]. destruct (N.eqb_spec (snd f) 6), (N.eqb_spec (snd f) 7); lia.
Qed.

(* ---- assembling ---- *)
Definition pending (e : bool) (m : Message) : Prop :=
  exists ci parts, m = m_set_parts (Message_new e) ci parts /\ length parts = 5%nat.
Definition part_of (m : Message) (i : nat) : MessagePart := nth i (m_parts m) MessagePart_default.
(* the place of a group in its message, and whether it is the last one *)
Definition place_of (y : N) : nat :=
  if getBool y 15 then 0%nat else if getBool y 14 then 1%nat else N.to_nat (4 - getBits 2 y 12).
Definition final (y : N) : bool := negb (getBool y 15) && (getBits 2 y 12 =? 0).
Lemma place_lt : forall y, (place_of y < 5)%nat.
Proof. intros y. unfold place_of. destruct (getBool y 15); [lia|]. destruct (getBool y 14); lia. Qed.
Lemma new_pending : forall e, pending e (Message_new e).
Proof. intros e. exists 0, (repeat MessagePart_default 5). split; reflexivity. Qed.

Definition with_part (m : Message) (x y z : N) : Message :=
  m_set_parts m (getBits 3 x 0) (list_set (m_parts m) (place_of y) (Tmc.mkPart true y z)).
Lemma push_eq : forall d m x y z, pushMulti d m x y z =
  if final y then m_clear (decodeMulti d (with_part m x y z)) else with_part m x y z.
Proof.
  intros d m x y z. unfold pushMulti, with_part, final, place_of. cbv zeta.
  destruct (getBool y 15); cbn [negb andb]; [reflexivity|]. destruct (getBool y 14); reflexivity.
Qed.
Lemma with_pending : forall e m x y z, pending e m -> pending e (with_part m x y z).
Proof.
  intros e m x y z (ci & parts & -> & L). eexists. eexists. split; [reflexivity|]. cbn [m_parts m_set_parts]. rewrite list_set_length. exact L.
Qed.
Lemma clear_complete : forall m, m_is_complete (m_clear m) = m_is_complete m. Proof. reflexivity. Qed.
Lemma apply_complete : forall d fs m, m_is_complete (fold_left (apply_field d) fs m) = m_is_complete m.
Proof.
  intros d fs. induction fs as [|[l v] fs IH]; intros m; [reflexivity|]. cbn [fold_left]. rewrite IH. unfold apply_field. cbv zeta.
  repeat match goal with |- context [match ?x with _ => _ end] => is_var x; destruct x; cbn [m_is_complete]; try reflexivity end;
  match goal with |- context [if ?b then _ else _] => destruct b end; reflexivity.
Qed.
Lemma decode_complete : forall d e m, pending e m -> m_is_complete (decodeMulti d m) = part_received (part_of m 0).
Proof.
  intros d e m (ci & parts & -> & L). unfold decodeMulti, part_of. cbn [m_parts m_set_parts]. cbv zeta.
  destruct (part_received (nth 0 parts MessagePart_default)); cbn [negb]; [|reflexivity].
  match goal with |- context [if ?b then _ else _] => destruct b end; [rewrite apply_complete|]; reflexivity.
Qed.
Lemma push_complete : forall d e m x y z, pending e m ->
  m_is_complete (pushMulti d m x y z) = final y && part_received (part_of (with_part m x y z) 0).
Proof.
  intros d e m x y z P. rewrite push_eq. destruct (final y); cbn [andb].
  - rewrite clear_complete. apply (decode_complete d e). apply with_pending, P.
  - destruct P as (ci & parts & -> & _). reflexivity.
Qed.
Lemma push_pending : forall d e m x y z, pending e m -> m_is_complete (pushMulti d m x y z) = false -> pending e (pushMulti d m x y z).
Proof.
  intros d e m x y z P C. rewrite (push_complete d e m x y z P) in C. rewrite push_eq. destruct (final y); [|apply with_pending, P]. cbn [andb] in C.
  unfold decodeMulti. fold (part_of (with_part m x y z) 0). rewrite C. cbn [negb].
  destruct (with_pending e m x y z P) as (ci & parts & -> & L). eexists. eexists. split; [reflexivity|]. cbn [m_parts m_set_parts]. rewrite map_length. exact L.
Qed.

(* The message under construction after a group *)
Definition msg_do (d : TmcData) (e : bool) (m : Message) (q : N * (N * N)) : Message :=
  let m' := pushMulti d (if fst q =? m_continuity_index m then m else Message_new e) (fst q) (fst (snd q)) (snd (snd q)) in
  if m_is_complete m' then Message_new e else m'.
Lemma msg_do_pending : forall d e m q, pending e m -> pending e (msg_do d e m q).
Proof.
  intros d e m q P. unfold msg_do. cbv zeta. destruct (m_is_complete _) eqn:C; [apply new_pending|].
  apply push_pending; [|exact C]. destruct (_ =? _); [exact P|apply new_pending].
Qed.
Lemma msg_dos_pending : forall d e l m, pending e m -> pending e (fold_left (msg_do d e) l m).
Proof. intros d e l. induction l as [|q l IH]; intros m P; [exact P|]. cbn [fold_left]. apply IH, msg_do_pending, P. Qed.

Lemma nth_list_set : forall A (l : list A) i j x a, (i < length l)%nat -> nth j (list_set l i x) a = if Nat.eqb i j then x else nth j l a.
Proof.
  intros A l. induction l as [|y l IH]; intros [|i] [|j] x a H; cbn in *; try lia; try reflexivity. apply IH. lia.
Qed.
(* Nothing of message c is there *)
Definition fresh (c : N) (m : Message) : Prop := m_continuity_index m <> c \/ forall i, part_received (part_of m i) = false.
Lemma new_part : forall e i, part_received (part_of (Message_new e) i) = false.
Proof. intros e i. unfold part_of. cbn [m_parts Message_new repeat]. do 5 (destruct i as [|i]; [reflexivity|]). destruct i; reflexivity. Qed.
Lemma ci_of : forall c, c < 8 -> getBits 3 c 0 = c.
Proof. intros c H. rewrite getBits_arith. change (2 ^ 0) with 1. change (2 ^ 3) with 8. rewrite N.div_1_r. apply N.mod_small, H. Qed.
Lemma clear_part : forall m i, part_received (part_of (m_clear m) i) = false.
Proof.
  intros m i. unfold part_of, m_clear. cbn [m_parts m_set_parts]. revert i. induction (m_parts m) as [|q l IH]; intros [|i]; try reflexivity. apply IH.
Qed.
(* A group of another message, or the last one of a message, leaves nothing of message c *)
Lemma boundary_fresh : forall d e m q c, 0 < c < 8 -> fst q < 8 -> fst q <> c \/ final (fst (snd q)) = true -> fresh c (msg_do d e m q).
Proof.
  intros d e m [c0 [y z]] c Hc Hq B. cbn [fst snd] in *. unfold msg_do. cbn [fst snd]. cbv zeta. destruct (m_is_complete _) eqn:C; [right; apply new_part|].
  rewrite push_eq. destruct (final y) eqn:F; [right; apply clear_part|]. left. destruct B as [B|B]; [|discriminate].
  unfold with_part. cbn [m_continuity_index m_set_parts]. rewrite ci_of by exact Hq. exact B.
Qed.

(* Receiving groups of one message, none of which is the last one *)
Lemma collect : forall d e c qs m, pending e m -> 0 < c < 8 -> fresh c m -> Forall (fun q => final (fst q) = false) qs ->
  (forall q r, In q qs -> In r qs -> place_of (fst q) = place_of (fst r) -> q = r) -> qs <> [] ->
  let m' := fold_left (msg_do d e) (map (pair c) qs) m in
  pending e m' /\ m_continuity_index m' = c /\ (forall q, In q qs -> part_of m' (place_of (fst q)) = Tmc.mkPart true (fst q) (snd q)) /\
  (forall i, (forall q, In q qs -> place_of (fst q) <> i) -> part_received (part_of m' i) = false).
Proof.
  intros d e c qs. induction qs as [|q qs IH] using rev_ind; intros m P Hc Fr F D N0; [contradiction|]. clear N0. cbv zeta.
  rewrite map_app, fold_left_app. cbn [map fold_left]. apply Forall_app in F. destruct F as [F Fq]. inversion Fq as [|? ? Hq _]; subst.
  set (m1 := fold_left (msg_do d e) (map (pair c) qs) m).
  assert (P1 : pending e m1) by (apply msg_dos_pending, P).
  set (m2 := if c =? m_continuity_index m1 then m1 else Message_new e).
  assert (P2 : pending e m2) by (unfold m2; destruct (_ =? _); [exact P1|apply new_pending]).
  assert (L2 : length (m_parts m2) = 5%nat) by (destruct P2 as (ci & parts & -> & L); exact L).
  assert (Ed : msg_do d e m1 (c, q) = with_part m2 c (fst q) (snd q)).
  { unfold msg_do. cbn [fst snd]. fold m2. rewrite push_eq, Hq. destruct (m_is_complete _) eqn:C; [|reflexivity]. exfalso.
    destruct (with_pending e m2 c (fst q) (snd q) P2) as (ci & parts & E & _). rewrite E in C. discriminate. }
  assert (Q : (forall r, In r qs -> part_of m2 (place_of (fst r)) = Tmc.mkPart true (fst r) (snd r)) /\
              (forall i, (forall r, In r qs -> place_of (fst r) <> i) -> part_received (part_of m2 i) = false)).
  { destruct qs as [|q0 qs'].
    - split; [intros r []|]. intros i _. subst m1 m2. cbn [map fold_left]. destruct (N.eqb_spec c (m_continuity_index m)) as [E|E]; [|apply new_part].
      destruct Fr as [Fr|Fr]; [congruence|apply Fr].
    - destruct (IH m P Hc Fr F) as (_ & Ci & Pt & Un); [|discriminate|].
      + intros a b Ha Hb. apply D; apply in_or_app; left; assumption.
      + fold m1 in Ci, Pt, Un. unfold m2. rewrite Ci, N.eqb_refl. split; assumption. }
  destruct Q as [Pt Un]. rewrite Ed. split; [apply with_pending, P2|]. split; [|split].
  - unfold with_part. cbn [m_continuity_index m_set_parts]. apply ci_of. lia.
  - intros r Hr. unfold part_of, with_part. cbn [m_parts m_set_parts].
    rewrite nth_list_set by (rewrite L2; apply place_lt).
    destruct (Nat.eqb_spec (place_of (fst q)) (place_of (fst r))) as [E|E].
    + rewrite (D q r); [reflexivity| |exact Hr|exact E]. apply in_or_app. right. left. reflexivity.
    + apply in_app_or in Hr. destruct Hr as [Hr|[<-|[]]]; [|contradiction]. exact (Pt r Hr).
  - intros i Hi. unfold part_of, with_part. cbn [m_parts m_set_parts]. rewrite nth_list_set by (rewrite L2; apply place_lt).
    destruct (Nat.eqb_spec (place_of (fst q)) i) as [E|E]; [exfalso; apply (Hi q); [apply in_or_app; right; left; reflexivity|exact E]|].
    apply Un. intros r Hr. apply Hi, in_or_app. left. exact Hr.
Qed.

Lemma firstn_repeat_le : forall A (a : A) n k, firstn n (repeat a k) = repeat a (Nat.min n k).
Proof. intros A a n. induction n as [|n IH]; intros [|k]; try reflexivity. cbn [repeat firstn Nat.min]. rewrite IH. reflexivity. Qed.

(* ---- a whole message ---- *)
Lemma bit15 : forall y, y < 65536 -> getBool y 15 = (32768 <=? y).
Proof.
  intros y H. rewrite getBool_testbit, N.testbit_odd, N.shiftr_div_pow2. change (2 ^ 15) with 32768.
  destruct (N.leb_spec 32768 y) as [L|L]; [|rewrite N.div_small by lia; reflexivity].
  replace (y / 32768) with 1 by lia. reflexivity.
Qed.
Lemma bit14 : forall y, getBool y 14 = (((y / 4096) / 4) mod 2 =? 1).
Proof.
  intros y. rewrite getBool_testbit, N.testbit_odd, N.shiftr_div_pow2, N.div_div by discriminate. change (4096 * 4) with (2 ^ 14).
  rewrite <- N.bit0_odd, N.bit0_eqb. reflexivity.
Qed.
Lemma gsi_of : forall y, getBits 2 y 12 = (y / 4096) mod 4.
Proof. intros y. rewrite getBits_arith. reflexivity. Qed.
Lemma place_head : forall w, w < 32768 -> place_of (32768 + w) = 0%nat /\ final (32768 + w) = false.
Proof. intros w H. unfold place_of, final. rewrite bit15 by lia. replace (32768 <=? 32768 + w) with true by lia. split; reflexivity. Qed.
Lemma place_rest : forall y n i, y < 65536 -> y / 4096 = (if Nat.eqb i 0 then 4 else 0) + N.of_nat (n - 1 - i) -> (i < n)%nat -> (n <= 4)%nat ->
  place_of y = (if Nat.eqb i 0 then 1 else 5 - n + i)%nat /\ final y = Nat.eqb (S i) n /\ getBits 2 y 12 = N.of_nat (n - 1 - i).
Proof.
  intros y n i Hy E Hi Hn. assert (L : y < 32768) by (destruct (Nat.eqb i 0); lia). unfold place_of, final. rewrite bit15 by exact Hy. replace (32768 <=? y) with false by lia.
  rewrite bit14, gsi_of, E. destruct (Nat.eqb_spec i 0) as [->|Ni].
  - replace (((4 + N.of_nat (n - 1 - 0)) / 4) mod 2 =? 1) with true by lia. replace ((4 + N.of_nat (n - 1 - 0)) mod 4) with (N.of_nat (n - 1 - 0)) by lia.
    split; [reflexivity|]. split; [|reflexivity]. cbn [negb andb]. destruct (Nat.eqb_spec 1 n); lia.
  - replace (((0 + N.of_nat (n - 1 - i)) / 4) mod 2 =? 1) with false by lia. replace ((0 + N.of_nat (n - 1 - i)) mod 4) with (N.of_nat (n - 1 - i)) by lia.
    split; [lia|]. split; [|reflexivity]. cbn [negb andb]. destruct (Nat.eqb_spec (S i) n); lia.
Qed.
Lemma head_fields : forall ms, message_ok ms -> let y := 32768 + head_word ms in
  head_word ms < 32768 /\ getBits 11 y 0 = ms_event ms /\ getBits 3 y 11 = ms_extent ms /\ getBool y 14 = ms_negative ms.
Proof.
  intros ms (H1 & H2 & _ & _) y. assert (Hw : head_word ms < 32768) by (unfold head_word; destruct (ms_negative ms); lia). split; [exact Hw|].
  subst y. rewrite bit14, !getBits_arith. unfold head_word. change (2 ^ 0) with 1. change (2 ^ 11) with 2048. change (2 ^ 3) with 8.
  split; [destruct (ms_negative ms); lia|]. split; [destruct (ms_negative ms); lia|]. rewrite N.div_div by discriminate. change (4096 * 4) with 16384. destruct (ms_negative ms); lia.
Qed.
Lemma head_fields_single : forall ms (b : bool), message_ok ms -> let y := (if b then 32768 else 0) + head_word ms in
  getBits 11 y 0 = ms_event ms /\ getBits 3 y 11 = ms_extent ms /\ getBool y 14 = ms_negative ms /\ y < 65536.
Proof.
  intros ms b (H1 & H2 & _ & _) y.
  subst y. rewrite bit14, !getBits_arith. unfold head_word. change (2 ^ 0) with 1. change (2 ^ 11) with 2048. change (2 ^ 3) with 8.
  split; [destruct b, (ms_negative ms); lia|]. split; [destruct b, (ms_negative ms); lia|]. rewrite N.div_div by discriminate. change (4096 * 4) with 16384. destruct b, (ms_negative ms); lia.
Qed.

Definition freeform (yz : N * N) : list bool := bits_of 12 (fst yz) ++ bits_of 16 (snd yz).
Lemma nth_skip : forall A (l : list A) n i a, nth i (skipn n l) a = nth (n + i) l a.
Proof. intros A l n. revert l. induction n as [|n IH]; intros [|x l] i a; try reflexivity; [destruct i; reflexivity|]. exact (IH l i a). Qed.
(* The groups whose fields are used *)
Definition used (rest : list (N * N)) : list (N * N) := if Nat.eqb (length rest) 4 then rest else firstn 1 rest.
Lemma decode_sent : forall d e m ms rest tail, message_ok ms -> pending e m -> (1 <= length rest <= 4)%nat ->
  Forall (fun q => fst q < 65536) rest ->
  flat_map freeform (used rest) = flat_map coded_field (ms_fields ms) ++ tail -> no_field tail ->
  (forall i y z, nth_error rest i = Some (y, z) -> y / 4096 = (if Nat.eqb i 0 then 4 else 0) + N.of_nat (length rest - 1 - i)) ->
  part_of m 0 = Tmc.mkPart true (32768 + head_word ms) (ms_location ms) ->
  (forall q, In q rest -> part_of m (place_of (fst q)) = Tmc.mkPart true (fst q) (snd q)) ->
  (length rest <> 4%nat -> part_received (part_of m 2) = false) ->
  means d (m_set_head d m (32768 + head_word ms) (ms_location ms)) (ms_fields ms) (decodeMulti d m).
Proof.
  intros d e m ms rest tail Ok P Ln B Fb Nf Gs P0 Pr Un. unfold decodeMulti. fold (part_of m 0). rewrite P0. cbn [part_received negb part_d0 part_d1]. cbv zeta.
  destruct P as (ci & parts & Em & L5).
  assert (Ep : m_parts m = parts) by (rewrite Em; reflexivity).
  assert (Pl : forall i q, nth_error rest i = Some q -> part_of m (if Nat.eqb i 0 then 1 else 5 - length rest + i)%nat = Tmc.mkPart true (fst q) (snd q) /\ getBits 2 (fst q) 12 = N.of_nat (length rest - 1 - i)).
  { intros i [y z] Hi. assert (X : In (y, z) rest) by (eapply nth_error_In; exact Hi). assert (Li : (i < length rest)%nat) by (apply nth_error_Some; congruence).
    rewrite Forall_forall in B. destruct (place_rest y (length rest) i (B _ X) (Gs _ _ _ Hi) Li) as (E1 & _ & E3); [lia|]. rewrite <- E1. split; [exact (Pr _ X)|exact E3]. }
  cbn [m_parts m_set_head].
  assert (Ext : forall fs, Forall field_ok fs -> (4 * length fs <= 112)%nat -> m_extent (m_set_head d m (32768 + head_word ms) (ms_location ms)) + 16 * N.of_nat (length fs) < 65536).
  { intros fs _ Hl. cbn [m_extent m_set_head]. rewrite getBits_arith. assert (((32768 + head_word ms) / 2 ^ 11) mod 2 ^ 3 < 2 ^ 3) by (apply N.mod_lt; discriminate). change (2 ^ 3) with 8 in *. lia. }
  destruct Ok as (_ & _ & _ & Fk).
  assert (Lu : (length (used rest) <= 4)%nat).
  { unfold used. destruct (Nat.eqb_spec (length rest) 4); [lia|]. rewrite firstn_length. lia. }
  assert (Cnt : (4 * length (ms_fields ms) <= 28 * length (used rest))%nat).
  { pose proof (fields_count (ms_fields ms)) as X. assert (Y : forall l, length (flat_map freeform l) = (28 * length l)%nat).
    { clear. induction l as [|q r IH]; [reflexivity|]. cbn [flat_map length]. unfold freeform at 1. rewrite !app_length, !bits_of_length, IH. lia. }
    specialize (Y (used rest)). rewrite Fb, app_length in Y. lia. }
  assert (Bits : freeform_bits (skipn 1 parts) 1 (getBits 2 (part_d0 (nth 1 parts MessagePart_default)) 12) = flat_map freeform (used rest)).
  { unfold used. unfold part_of in Pl, Un, P0. rewrite Ep in Pl, Un, P0. destruct parts as [|p0 [|p1 [|p2 [|p3 [|p4 [|? ?]]]]]]; try discriminate L5. cbn [skipn nth] in *.
    destruct (Nat.eqb_spec (length rest) 4) as [L4|L4].
    2: { destruct rest as [|q1 r]; [cbn [length] in Ln; lia|]. destruct (Pl 0%nat q1 eq_refl) as [E1 G1]. cbn [Nat.eqb nth] in E1. rewrite E1 in *. cbn [part_d0]. rewrite G1.
      cbn [freeform_bits part_received negb N.eqb orb firstn]. rewrite (Un L4). cbn [negb flat_map]. rewrite !app_nil_r. cbn [Pos.eqb orb part_d0 part_d1]. rewrite !word_bits_of. reflexivity. }
    - rewrite L4 in *. destruct rest as [|q1 [|q2 [|q3 [|q4 [|? ?]]]]]; try discriminate L4.
      destruct (Pl 0%nat q1 eq_refl) as [E1 G1]. destruct (Pl 1%nat q2 eq_refl) as [E2 _]. destruct (Pl 2%nat q3 eq_refl) as [E3 _]. destruct (Pl 3%nat q4 eq_refl) as [E4 _].
      cbn [Nat.eqb nth Nat.sub Nat.add] in E1, E2, E3, E4. rewrite E1, E2, E3, E4. cbn [part_d0]. rewrite G1.
      cbn [freeform_bits part_received negb part_d0 part_d1 flat_map]. rewrite !word_bits_of. change (5 - N.of_nat (4 - 1 - 0)) with 2. cbn [N.eqb Pos.eqb N.leb N.compare Pos.compare Pos.compare_cont N.add Pos.add Pos.succ orb]. reflexivity. }
  assert (R1 : part_received (part_of m 1) = true).
  { destruct rest as [|q r]; [cbn [length] in Ln; lia|]. destruct (Pl 0%nat q eq_refl) as [E1 _]. cbn [Nat.eqb] in E1. rewrite E1. reflexivity. }
  unfold part_of in R1. rewrite Ep in R1 |- *. rewrite R1. unfold getFreeformFields. rewrite Bits, Fb, split_fold; [|exact Nf|exact Fk|lia].
  apply apply_all; [exact Fk|]. apply Ext; [exact Fk|]. lia.
Qed.

(* The last group of a message completes it *)
Definition shown_fields (n : nat) (fs fs1 : list (N * N)) : Prop :=
  (n = 2 \/ n = 5)%nat /\ fs1 = fs \/ (n = 3 \/ n = 4)%nat /\ in_second_group fs fs1.
Lemma shown_ok : forall n ms fs1, message_ok ms -> shown_fields n (ms_fields ms) fs1 -> message_ok (with_fields ms fs1).
Proof.
  intros n ms fs1 (H1 & H2 & H3 & H4) S. split; [exact H1|]. split; [exact H2|]. split; [exact H3|]. cbn [ms_fields with_fields]. destruct S as [[_ ->]|[_ (_ & fs2 & E & _)]]; [exact H4|].
  rewrite E in H4. apply Forall_app in H4. apply H4.
Qed.
Lemma freeform_length : forall q, length (freeform q) = 28%nat.
Proof. intros q. unfold freeform. rewrite app_length, !bits_of_length. reflexivity. Qed.
Lemma used_bits : forall ms rest k fs1, message_ok ms -> (1 <= length rest)%nat -> flat_map freeform rest = flat_map coded_field (ms_fields ms) ++ repeat false k ->
  shown_fields (S (length rest)) (ms_fields ms) fs1 ->
  exists tail, flat_map freeform (used rest) = flat_map coded_field fs1 ++ tail /\ no_field tail.
Proof.
  intros ms rest k fs1 (_ & _ & _ & Fk) L1 Fb [[L ->]|[L (L28 & fs2 & E & N2)]].
  - exists (repeat false k). split; [|intros fuel; apply split_zeros]. rewrite <- Fb. unfold used. destruct (Nat.eqb_spec (length rest) 4); [reflexivity|]. rewrite firstn_all2 by lia. reflexivity.
  - unfold used. destruct (Nat.eqb_spec (length rest) 4) as [L4|_]; [lia|]. destruct rest as [|q r]; [cbn [length] in L1; lia|]. cbn [firstn flat_map] in *. rewrite app_nil_r.
    assert (Eq : freeform q = firstn 28 (flat_map coded_field (ms_fields ms) ++ repeat false k)).
    { rewrite <- Fb, firstn_app, freeform_length, Nat.sub_diag, firstn_all2 by (rewrite freeform_length; lia). cbn [firstn]. rewrite app_nil_r. reflexivity. }
    rewrite E, flat_map_app, <- app_assoc, firstn_app, firstn_all2 in Eq by exact L28.
    eexists. split; [exact Eq|]. rewrite E in Fk. apply Forall_app in Fk. destruct Fk as [_ Fk2]. destruct fs2 as [|f fs2].
    + cbn [flat_map app]. intros fuel. rewrite firstn_repeat_le. apply split_zeros.
    + cbn [flat_map]. rewrite <- app_assoc. inversion Fk2; subst. apply cut_field; [assumption|]. rewrite flat_map_app, app_length in N2. cbn [flat_map] in N2. rewrite app_nil_r in N2. lia.
Qed.
Lemma whole_message : forall d e c groups ms fs1 m, message_ok ms -> pending e m -> 0 < c < 8 -> fresh c m -> sent_in ms groups ->
  shown_fields (length groups) (ms_fields ms) fs1 -> Forall (fun q => fst q < 65536) groups ->
  exists init y z m1 mt, groups = init ++ [(y, z)] /\ init <> [] /\ m1 = fold_left (msg_do d e) (map (pair c) init) m /\
    pending e m1 /\ m_continuity_index m1 = c /\ pushMulti d m1 c y z = m_clear mt /\
    means d (m_set_head d (Message_new e) (32768 + head_word ms) (ms_location ms)) fs1 mt.
Proof.
  intros d e c groups ms fs1 m Mok P Hc Fr (rest & k & Eg & Fb & Gs) Ln B.
  assert (Lr : (1 <= length rest <= 4)%nat) by (rewrite Eg in Ln; cbn [length] in Ln; destruct Ln as [[Ln _]|[Ln _]]; lia).
  pose proof (shown_ok _ _ _ Mok Ln) as Mok1.
  destruct (used_bits ms rest k fs1 Mok (proj1 Lr) Fb) as (tail & Fb1 & Nft); [rewrite Eg in Ln; exact Ln|].
  set (hd := (32768 + head_word ms, ms_location ms)) in *. rewrite Eg in B. inversion B as [|? ? Bh Br]; subst. 
  assert (Hh : place_of (fst hd) = 0%nat /\ final (fst hd) = false) by (apply place_head, (proj1 (head_fields ms Mok))).
  assert (Pl : forall i q, nth_error rest i = Some q -> place_of (fst q) = (if Nat.eqb i 0 then 1 else 5 - length rest + i)%nat /\ final (fst q) = Nat.eqb (Datatypes.S i) (length rest)).
  { intros i [y z] Hi. assert (X : In (y, z) rest) by (eapply nth_error_In; exact Hi). assert (Li : (i < length rest)%nat) by (apply nth_error_Some; congruence).
    rewrite Forall_forall in Br. destruct (place_rest y (length rest) i (Br _ X) (Gs _ _ _ Hi) Li) as (E1 & E2 & _); [lia|]. split; assumption. }
  assert (Nr : rest <> []) by (intros ->; cbn [length] in Lr; lia).
  destruct (exists_last Nr) as (ir & [y z] & Er).
  assert (D : forall q r, In q (hd :: rest) -> In r (hd :: rest) -> place_of (fst q) = place_of (fst r) -> q = r).
  { assert (D0 : forall q, In q rest -> place_of (fst q) <> 0%nat).
    { intros q Hq. apply In_nth_error in Hq. destruct Hq as (i & Hi). assert (Li : (i < length rest)%nat) by (apply nth_error_Some; congruence). destruct (Pl i q Hi) as [E _]. rewrite E. destruct (Nat.eqb i 0); lia. }
    intros q r [<-|Hq] [<-|Hr] E; [reflexivity| | |].
    - exfalso. apply (D0 r Hr). rewrite <- E. apply Hh.
    - exfalso. apply (D0 q Hq). rewrite E. apply Hh.
    - apply In_nth_error in Hq, Hr. destruct Hq as (i & Hi). destruct Hr as (j & Hj). destruct (Pl i q Hi) as [E1 _]. destruct (Pl j r Hj) as [E2 _].
      assert (Li : (i < length rest)%nat) by (apply nth_error_Some; congruence). assert (Lj : (j < length rest)%nat) by (apply nth_error_Some; congruence).
      assert (i = j) as <-. { rewrite E1, E2 in E. destruct (Nat.eqb_spec i 0), (Nat.eqb_spec j 0); lia. } congruence. }
  assert (Li : length rest = Datatypes.S (length ir)) by (rewrite Er, app_length; cbn [length]; lia).
  assert (Fi : Forall (fun q => final (fst q) = false) (hd :: ir)).
  { constructor; [apply Hh|]. apply Forall_forall. intros q Hq. apply In_nth_error in Hq. destruct Hq as (i & Hi). assert (L2 : (i < length ir)%nat) by (apply nth_error_Some; congruence).
    destruct (Pl i q) as [_ E]; [rewrite Er, nth_error_app1 by exact L2; exact Hi|]. rewrite E. apply Nat.eqb_neq. lia. }
  assert (Sub : forall q, In q (hd :: ir) -> In q (hd :: rest)).
  { intros q [<-|Hq]; [left; reflexivity|right; rewrite Er; apply in_or_app; left; exact Hq]. }
  destruct (collect d e c (hd :: ir) m P Hc Fr Fi) as (P1 & C1 & Pt & Un); [intros q r Hq Hr; apply D; apply Sub; assumption|discriminate|].
  set (m1 := fold_left (msg_do d e) (map (pair c) (hd :: ir)) m) in *.
  assert (Lst : nth_error rest (length ir) = Some (y, z)) by (rewrite Er, nth_error_app2, Nat.sub_diag by lia; reflexivity).
  destruct (Pl _ _ Lst) as [Ely Efy]. cbn [fst] in Ely, Efy. rewrite Li, Nat.eqb_refl in Efy.
  exists (hd :: ir), y, z, m1, (decodeMulti d (with_part m1 c y z)). split; [cbn [app]; rewrite <- Er; reflexivity|]. split; [discriminate|]. split; [reflexivity|]. split; [exact P1|]. split; [exact C1|].
  split; [rewrite push_eq, Efy; reflexivity|].
  assert (L1 : length (m_parts m1) = 5%nat) by (destruct P1 as (ci & parts & -> & L); exact L).
  assert (W : forall i, part_of (with_part m1 c y z) i = if Nat.eqb (place_of y) i then Tmc.mkPart true y z else part_of m1 i).
  { intros i. unfold part_of, with_part. cbn [m_parts m_set_parts]. apply nth_list_set. rewrite L1. apply place_lt. }
  assert (Y0 : place_of y <> 0%nat) by (rewrite Ely; destruct (Nat.eqb (length ir) 0); lia).
  assert (M : means d (m_set_head d (with_part m1 c y z) (32768 + head_word ms) (ms_location ms)) fs1 (decodeMulti d (with_part m1 c y z))).
  { apply (decode_sent d e _ (with_fields ms fs1) rest tail); try assumption.
    - apply with_pending, P1.
    - rewrite W. destruct (Nat.eqb_spec (place_of y) 0); [contradiction|]. rewrite <- (proj1 Hh). apply (Pt hd). left. reflexivity.
    - intros q Hq. rewrite W. destruct (Nat.eqb_spec (place_of y) (place_of (fst q))) as [E|E].
      + assert (X : (y, z) = q) by (apply D; [right; rewrite Er; apply in_or_app; right; left; reflexivity|right; exact Hq|exact E]). rewrite <- X. reflexivity.
      + apply Pt. right. rewrite Er in Hq. apply in_app_or in Hq. destruct Hq as [Hq|[<-|[]]]; [exact Hq|]. exfalso. apply E. reflexivity.
    - intros L2. assert (P2 : forall q, In q (hd :: rest) -> place_of (fst q) <> 2%nat).
      { intros q [<-|Hq]; [rewrite (proj1 Hh); discriminate|]. apply In_nth_error in Hq. destruct Hq as (i & Hi). assert (Lq : (i < length rest)%nat) by (apply nth_error_Some; congruence).
        destruct (Pl i q Hi) as [E _]. rewrite E. destruct (Nat.eqb_spec i 0); lia. }
      rewrite W. destruct (Nat.eqb_spec (place_of y) 2) as [E|E].
      + exfalso. apply (P2 (y, z)); [right; rewrite Er; apply in_or_app; right; left; reflexivity|exact E].
      + apply Un. intros q Hq. apply P2, Sub, Hq. }
  destruct (with_pending e m1 c y z P1) as (ci & parts & Ew & _). rewrite Ew in M at 1. destruct M as [M1 M2 M3 M4 M5 M6 M7 M8 M9 M10 M11 M12 M13 M14 M15 M16]. constructor; assumption.
Qed.

(* ---- the same, whatever was received before ---- *)
Lemma collect_any : forall d e c qs m, pending e m \/ m_continuity_index m <> c -> 0 < c < 8 -> Forall (fun q => final (fst q) = false) qs ->
  (forall q r, In q qs -> In r qs -> place_of (fst q) = place_of (fst r) -> q = r) -> qs <> [] ->
  let m' := fold_left (msg_do d e) (map (pair c) qs) m in
  pending e m' /\ m_continuity_index m' = c /\ (forall q, In q qs -> part_of m' (place_of (fst q)) = Tmc.mkPart true (fst q) (snd q)).
Proof.
  intros d e c qs. induction qs as [|q qs IH] using rev_ind; intros m P Hc F D N0; [contradiction|]. clear N0. cbv zeta.
  rewrite map_app, fold_left_app. cbn [map fold_left]. apply Forall_app in F. destruct F as [F Fq]. inversion Fq as [|? ? Hq _]; subst.
  set (m1 := fold_left (msg_do d e) (map (pair c) qs) m).
  set (m2 := if c =? m_continuity_index m1 then m1 else Message_new e).
  assert (Q : pending e m2 /\ forall r, In r qs -> part_of m2 (place_of (fst r)) = Tmc.mkPart true (fst r) (snd r)).
  { destruct qs as [|q0 qs'].
    - split; [|intros r []]. subst m1 m2. cbn [map fold_left]. destruct (N.eqb_spec c (m_continuity_index m)) as [E|E]; [|apply new_pending].
      destruct P as [P|P]; [exact P|congruence].
    - destruct (IH m P Hc F) as (P1 & Ci & Pt); [|discriminate|].
      + intros a b Ha Hb. apply D; apply in_or_app; left; assumption.
      + fold m1 in P1, Ci, Pt. unfold m2. rewrite Ci, N.eqb_refl. split; assumption. }
  destruct Q as [P2 Pt].
  assert (L2 : length (m_parts m2) = 5%nat) by (destruct P2 as (ci & parts & -> & L); exact L).
  assert (Ed : msg_do d e m1 (c, q) = with_part m2 c (fst q) (snd q)).
  { unfold msg_do. cbn [fst snd]. fold m2. rewrite push_eq, Hq. destruct (m_is_complete _) eqn:C; [|reflexivity]. exfalso.
    destruct (with_pending e m2 c (fst q) (snd q) P2) as (ci & parts & E & _). rewrite E in C. discriminate. }
  rewrite Ed. split; [apply with_pending, P2|]. split.
  - unfold with_part. cbn [m_continuity_index m_set_parts]. apply ci_of. lia.
  - intros r Hr. unfold part_of, with_part. cbn [m_parts m_set_parts].
    rewrite nth_list_set by (rewrite L2; apply place_lt).
    destruct (Nat.eqb_spec (place_of (fst q)) (place_of (fst r))) as [E|E].
    + rewrite (D q r); [reflexivity| |exact Hr|exact E]. apply in_or_app. right. left. reflexivity.
    + apply in_app_or in Hr. destruct Hr as [Hr|[<-|[]]]; [|contradiction]. exact (Pt r Hr).
Qed.

(* The groups that are used: all, or only the second one *)
Lemma bits_any : forall parts rest, length parts = 5%nat -> (1 <= length rest <= 4)%nat ->
  (forall i q, nth_error rest i = Some q -> nth (if Nat.eqb i 0 then 1 else 5 - length rest + i)%nat parts MessagePart_default = Tmc.mkPart true (fst q) (snd q) /\
     getBits 2 (fst q) 12 = N.of_nat (length rest - 1 - i)) ->
  let bits := freeform_bits (skipn 1 parts) 1 (getBits 2 (part_d0 (nth 1 parts MessagePart_default)) 12) in
  bits = flat_map freeform rest \/ (length rest = 2 \/ length rest = 3)%nat /\ bits = flat_map freeform (firstn 1 rest).
Proof.
  intros parts rest L5 Ln Pl. cbv zeta. destruct parts as [|p0 [|p1 [|p2 [|p3 [|p4 [|? ?]]]]]]; try discriminate L5. clear L5. cbn [skipn].
  destruct rest as [|q1 [|q2 [|q3 [|q4 [|? ?]]]]]; cbn [length] in Ln; try lia.
  - destruct (Pl 0%nat q1 eq_refl) as [E1 G1]. cbn [Nat.eqb nth length Nat.sub Nat.add] in *. subst p1. cbn [part_d0]. rewrite G1. left.
    cbn [freeform_bits part_received negb part_d0 part_d1 flat_map app]. rewrite !word_bits_of. change (5 - N.of_nat 0) with 5.
    cbn [N.eqb Pos.eqb N.leb N.compare Pos.compare Pos.compare_cont N.add Pos.add Pos.succ orb app].
    destruct (part_received p2), (part_received p3), (part_received p4); cbn [negb]; rewrite ?app_nil_r; reflexivity.
  - destruct (Pl 0%nat q1 eq_refl) as [E1 G1]. destruct (Pl 1%nat q2 eq_refl) as [E2 _]. cbn [Nat.eqb nth length Nat.sub Nat.add] in *. subst p1 p4. cbn [part_d0]. rewrite G1.
    cbn [freeform_bits part_received negb part_d0 part_d1 flat_map app]. rewrite !word_bits_of. change (5 - N.of_nat 1) with 4.
    cbn [N.eqb Pos.eqb N.leb N.compare Pos.compare Pos.compare_cont N.add Pos.add Pos.succ orb app firstn flat_map].
    destruct (part_received p2), (part_received p3); cbn [negb]; rewrite ?app_nil_r; auto.
  - destruct (Pl 0%nat q1 eq_refl) as [E1 G1]. destruct (Pl 1%nat q2 eq_refl) as [E2 _]. destruct (Pl 2%nat q3 eq_refl) as [E3 _]. cbn [Nat.eqb nth length Nat.sub Nat.add] in *. subst p1 p3 p4. cbn [part_d0]. rewrite G1.
    cbn [freeform_bits part_received negb part_d0 part_d1 flat_map app]. rewrite !word_bits_of. change (5 - N.of_nat 2) with 3.
    cbn [N.eqb Pos.eqb N.leb N.compare Pos.compare Pos.compare_cont N.add Pos.add Pos.succ orb app firstn flat_map].
    destruct (part_received p2); cbn [negb]; rewrite ?app_nil_r; auto.
  - destruct (Pl 0%nat q1 eq_refl) as [E1 G1]. destruct (Pl 1%nat q2 eq_refl) as [E2 _]. destruct (Pl 2%nat q3 eq_refl) as [E3 _]. destruct (Pl 3%nat q4 eq_refl) as [E4 _]. cbn [Nat.eqb nth length Nat.sub Nat.add] in *. subst p1 p2 p3 p4. cbn [part_d0]. rewrite G1.
    cbn [freeform_bits part_received negb part_d0 part_d1 flat_map app]. rewrite !word_bits_of. change (5 - N.of_nat 3) with 2.
    cbn [N.eqb Pos.eqb N.leb N.compare Pos.compare Pos.compare_cont N.add Pos.add Pos.succ orb app flat_map]. left. reflexivity.
Qed.
Lemma second_group_exists : forall fs, exists fs1, in_second_group fs fs1.
Proof.
  assert (X : forall fs pre, (length (flat_map coded_field pre) <= 28)%nat -> exists fs1, in_second_group (pre ++ fs) fs1).
  { induction fs as [|f fs IH]; intros pre L.
    - exists pre. split; [exact L|]. exists []. split; [reflexivity|exact I].
    - destruct (Nat.leb_spec (length (flat_map coded_field (pre ++ [f]))) 28) as [L'|L'].
      + replace (pre ++ f :: fs) with ((pre ++ [f]) ++ fs) by (rewrite <- app_assoc; reflexivity). apply IH, L'.
      + exists pre. split; [exact L|]. exists (f :: fs). split; [reflexivity|exact L']. }
  intros fs. apply (X fs []). cbn [flat_map length]. lia.
Qed.
Lemma whole_any : forall d e c groups ms m, message_ok ms -> pending e m \/ m_continuity_index m <> c -> 0 < c < 8 -> sent_in ms groups ->
  (2 <= length groups <= 5)%nat -> Forall (fun q => fst q < 65536) groups ->
  exists init y z m1 mt fs1, groups = init ++ [(y, z)] /\ m1 = fold_left (msg_do d e) (map (pair c) init) m /\
    pending e m1 /\ m_continuity_index m1 = c /\ pushMulti d m1 c y z = m_clear mt /\
    (fs1 = ms_fields ms \/ (length groups = 3 \/ length groups = 4)%nat /\ in_second_group (ms_fields ms) fs1) /\
    means d (m_set_head d (Message_new e) (32768 + head_word ms) (ms_location ms)) fs1 mt.
Proof.
  intros d e c groups ms m Mok P Hc (rest & k & Eg & Fb & Gs) Ln B.
  assert (Lg : length groups = Datatypes.S (length rest)) by (rewrite Eg; reflexivity).
  assert (Lr : (1 <= length rest <= 4)%nat) by lia.
  set (hd := (32768 + head_word ms, ms_location ms)) in *. rewrite Eg in B. inversion B as [|? ? Bh Br]; subst.
  assert (Hh : place_of (fst hd) = 0%nat /\ final (fst hd) = false) by (apply place_head, (proj1 (head_fields ms Mok))).
  assert (Pl : forall i q, nth_error rest i = Some q -> place_of (fst q) = (if Nat.eqb i 0 then 1 else 5 - length rest + i)%nat /\ final (fst q) = Nat.eqb (Datatypes.S i) (length rest) /\
    getBits 2 (fst q) 12 = N.of_nat (length rest - 1 - i)).
  { intros i [y z] Hi. assert (X : In (y, z) rest) by (eapply nth_error_In; exact Hi). assert (Li : (i < length rest)%nat) by (apply nth_error_Some; congruence).
    rewrite Forall_forall in Br. destruct (place_rest y (length rest) i (Br _ X) (Gs _ _ _ Hi) Li) as (E1 & E2 & E3); [lia|]. split; [exact E1|]. split; assumption. }
  assert (Nr : rest <> []) by (intros ->; cbn [length] in Lr; lia).
  destruct (exists_last Nr) as (ir & [y z] & Er).
  assert (D : forall q r, In q (hd :: rest) -> In r (hd :: rest) -> place_of (fst q) = place_of (fst r) -> q = r).
  { assert (D0 : forall q, In q rest -> place_of (fst q) <> 0%nat).
    { intros q Hq. apply In_nth_error in Hq. destruct Hq as (i & Hi). assert (Li : (i < length rest)%nat) by (apply nth_error_Some; congruence). destruct (Pl i q Hi) as [E _]. rewrite E. destruct (Nat.eqb i 0); lia. }
    intros q r [<-|Hq] [<-|Hr] E; [reflexivity| | |].
    - exfalso. apply (D0 r Hr). rewrite <- E. apply Hh.
    - exfalso. apply (D0 q Hq). rewrite E. apply Hh.
    - apply In_nth_error in Hq, Hr. destruct Hq as (i & Hi). destruct Hr as (j & Hj). destruct (Pl i q Hi) as [E1 _]. destruct (Pl j r Hj) as [E2 _].
      assert (Li : (i < length rest)%nat) by (apply nth_error_Some; congruence). assert (Lj : (j < length rest)%nat) by (apply nth_error_Some; congruence).
      assert (i = j) as <-. { rewrite E1, E2 in E. destruct (Nat.eqb_spec i 0), (Nat.eqb_spec j 0); lia. } congruence. }
  assert (Li : length rest = Datatypes.S (length ir)) by (rewrite Er, app_length; cbn [length]; lia).
  assert (Fi : Forall (fun q => final (fst q) = false) (hd :: ir)).
  { constructor; [apply Hh|]. apply Forall_forall. intros q Hq. apply In_nth_error in Hq. destruct Hq as (i & Hi). assert (L2 : (i < length ir)%nat) by (apply nth_error_Some; congruence).
    destruct (Pl i q) as (_ & E & _); [rewrite Er, nth_error_app1 by exact L2; exact Hi|]. rewrite E. apply Nat.eqb_neq. lia. }
  assert (Sub : forall q, In q (hd :: ir) -> In q (hd :: rest)).
  { intros q [<-|Hq]; [left; reflexivity|right; rewrite Er; apply in_or_app; left; exact Hq]. }
  destruct (collect_any d e c (hd :: ir) m P Hc Fi) as (P1 & C1 & Pt); [intros q r Hq Hr; apply D; apply Sub; assumption|discriminate|].
  set (m1 := fold_left (msg_do d e) (map (pair c) (hd :: ir)) m) in *.
  assert (Lst : nth_error rest (length ir) = Some (y, z)) by (rewrite Er, nth_error_app2, Nat.sub_diag by lia; reflexivity).
  destruct (Pl _ _ Lst) as (Ely & Efy & _). cbn [fst] in Ely, Efy. rewrite Li, Nat.eqb_refl in Efy.
  assert (L1 : length (m_parts m1) = 5%nat) by (destruct P1 as (ci & parts & -> & L); exact L).
  set (m2 := with_part m1 c y z). assert (P2 : pending e m2) by (apply with_pending, P1).
  assert (W : forall i, part_of m2 i = if Nat.eqb (place_of y) i then Tmc.mkPart true y z else part_of m1 i).
  { intros i. unfold part_of, m2, with_part. cbn [m_parts m_set_parts]. apply nth_list_set. rewrite L1. apply place_lt. }
  assert (Y0 : place_of y <> 0%nat) by (rewrite Ely; destruct (Nat.eqb (length ir) 0); lia).
  assert (W0 : part_of m2 0 = Tmc.mkPart true (32768 + head_word ms) (ms_location ms)).
  { rewrite W. destruct (Nat.eqb_spec (place_of y) 0); [contradiction|]. rewrite <- (proj1 Hh). apply (Pt hd). left. reflexivity. }
  assert (Wr : forall q, In q rest -> part_of m2 (place_of (fst q)) = Tmc.mkPart true (fst q) (snd q)).
  { intros q Hq. rewrite W. destruct (Nat.eqb_spec (place_of y) (place_of (fst q))) as [E|E].
    + assert (X : (y, z) = q) by (apply D; [right; rewrite Er; apply in_or_app; right; left; reflexivity|right; exact Hq|exact E]). rewrite <- X. reflexivity.
    + apply Pt. right. rewrite Er in Hq. apply in_app_or in Hq. destruct Hq as [Hq|[<-|[]]]; [exact Hq|]. exfalso. apply E. reflexivity. }
  assert (Pe : pushMulti d m1 c y z = m_clear (decodeMulti d m2)) by (rewrite push_eq, Efy; reflexivity).
  clearbody m2. destruct P2 as (ci & parts & Em2 & L5).
  assert (Bp : forall i, part_of m2 i = nth i parts MessagePart_default) by (intros i; rewrite Em2; reflexivity).
  destruct (bits_any parts rest L5 Lr) as [Bits|[L23 Bits]].
  { intros i q Hi. destruct (Pl i q Hi) as (E1 & _ & E3). split; [|exact E3]. rewrite <- Bp, <- E1. apply Wr. eapply nth_error_In; exact Hi. }
  all: assert (R1 : part_received (nth 1 parts MessagePart_default) = true).
  1, 3: destruct rest as [|q r]; [contradiction|]; destruct (Pl 0%nat q eq_refl) as (E1 & _); cbn [Nat.eqb] in E1; rewrite <- Bp, <- E1, Wr by (left; reflexivity); reflexivity.
  all: assert (Go : forall u fs1 tail, freeform_bits (skipn 1 parts) 1 (getBits 2 (part_d0 (nth 1 parts MessagePart_default)) 12) = flat_map freeform u -> (length u <= 4)%nat ->
    flat_map freeform u = flat_map coded_field fs1 ++ tail -> no_field tail -> Forall field_ok fs1 ->
    means d (m_set_head d (Message_new e) (32768 + head_word ms) (ms_location ms)) fs1 (decodeMulti d m2)).
  1, 3: intros u fs1 tail Bu Lu Fu Nf Fk; unfold decodeMulti; fold (part_of m2 0); rewrite W0; cbn [part_received negb part_d0 part_d1]; cbv zeta;
    cbn [m_parts m_set_head]; replace (m_parts m2) with parts by (rewrite Em2; reflexivity); rewrite R1; unfold getFreeformFields; rewrite Bu, Fu;
    assert (Cnt : (4 * length fs1 <= 28 * length u)%nat) by
     (pose proof (fields_count fs1) as X; assert (Y : forall l, length (flat_map freeform l) = (28 * length l)%nat) by (clear; induction l as [|q r IH]; [reflexivity|]; cbn [flat_map length]; rewrite app_length, freeform_length, IH; lia);
      specialize (Y u); rewrite Fu, app_length in Y; lia);
    rewrite split_fold; [|exact Nf|exact Fk|lia];
    assert (M : means d (m_set_head d m2 (32768 + head_word ms) (ms_location ms)) fs1 (fold_left (apply_field d) fs1 (m_set_head d m2 (32768 + head_word ms) (ms_location ms)))) by
     (apply apply_all; [exact Fk|]; cbn [m_extent m_set_head]; rewrite getBits_arith; assert (((32768 + head_word ms) / 2 ^ 11) mod 2 ^ 3 < 2 ^ 3) by (apply N.mod_lt; discriminate); change (2 ^ 3) with 8 in *; lia);
    rewrite Em2 in M at 1; destruct M as [M1 M2 M3 M4 M5 M6 M7 M8 M9 M10 M11 M12 M13 M14 M15 M16]; constructor; assumption.
  - exists (hd :: ir), y, z, m1, (decodeMulti d m2), (ms_fields ms). split; [cbn [app]; rewrite <- Er; reflexivity|]. split; [reflexivity|]. split; [exact P1|]. split; [exact C1|].
    split; [exact Pe|]. split; [left; reflexivity|].
    apply (Go rest _ (repeat false k) Bits (proj2 Lr) Fb); [intros fuel; apply split_zeros|apply Mok].
  - destruct (second_group_exists (ms_fields ms)) as (fs1 & F1).
    exists (hd :: ir), y, z, m1, (decodeMulti d m2), fs1. split; [cbn [app]; rewrite <- Er; reflexivity|]. split; [reflexivity|]. split; [exact P1|]. split; [exact C1|].
    split; [exact Pe|]. split; [right; split; [cbn [length]; lia|exact F1]|].
    assert (S1 : shown_fields (Datatypes.S (length rest)) (ms_fields ms) fs1) by (right; split; [lia|exact F1]).
    destruct (used_bits ms rest k fs1 Mok (proj1 Lr) Fb S1) as (tail & Fb1 & Nft). unfold used in Fb1. replace (Nat.eqb (length rest) 4) with false in Fb1 by (symmetry; apply Nat.eqb_neq; lia).
    apply (Go (firstn 1 rest) fs1 tail Bits); [rewrite firstn_length; lia|exact Fb1|exact Nft|]. apply (shown_ok _ _ _ Mok S1).
Qed.
