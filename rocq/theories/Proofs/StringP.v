(* The text buffer: what it holds after the characters received. *)
From Verif.Model Require Import Util Group Tables RdsString.
From Verif.Spec Require Import Unicode Texts.
From Verif.Proofs Require Import Tac TextP.

(* ---- sequences of characters ---- *)
Lemma in_sequence_pos : forall n ws, in_sequence n ws -> 0 < n.
Proof. intros n ws H. induction H; lia. Qed.
Lemma in_sequence_shorter : forall m ws, in_sequence m ws -> forall n, 0 < n -> n <= m -> in_sequence n ws.
Proof.
  intros m ws H. induction H as [ws b|ws n c b H IH|ws n p b H IH Np]; intros k K0 Km.
  - assert (k = 1) as -> by lia. constructor.
  - destruct (N.eq_dec k (n + 2)) as [->|]; [constructor; exact H|].
    change [(n, c); (n + 1, b)] with ([(n, c)] ++ [(n + 1, b)])%list. rewrite app_assoc. apply in_other; [apply IH; lia|lia].
  - apply in_other; [apply IH; assumption|exact Np].
Qed.
Lemma in_sequence_earlier : forall n ws pre, in_sequence n ws -> in_sequence n (pre ++ ws).
Proof.
  intros n ws pre H. induction H as [ws b|ws n c b H IH|ws n p b H IH Np]; rewrite app_assoc.
  - constructor.
  - rewrite app_assoc in IH. apply in_next. exact IH.
  - apply in_other; assumption.
Qed.

Lemma first_at_app : forall i a b, first_at i (a ++ b) = match first_at i a with Some x => Some x | None => first_at i b end.
Proof. intros i a b. induction a as [|[p x] a IH]; [reflexivity|]. cbn [app first_at]. destruct (p =? i); [reflexivity|exact IH]. Qed.
Lemma last_at_snoc : forall i ws p b, last_at i (ws ++ [(p, b)]) = if p =? i then Some b else last_at i ws.
Proof. intros i ws p b. unfold last_at. rewrite rev_app_distr. reflexivity. Qed.
Lemma last_at_earlier : forall i ws pre b, last_at i ws = Some b -> last_at i (pre ++ ws) = Some b.
Proof. intros i ws pre b H. unfold last_at in *. rewrite rev_app_distr, first_at_app, H. reflexivity. Qed.
Lemma gapless_earlier : forall ws l pre, gapless ws l -> gapless (pre ++ ws) l.
Proof. intros ws l pre [A B]. split; [apply in_sequence_earlier; exact A|]. intros i b H. apply last_at_earlier, B, H. Qed.
Lemma complete_earlier : forall n ws l pre, complete_text n ws l -> complete_text n (pre ++ ws) l.
Proof. intros n ws l pre [A B]. split; [apply gapless_earlier; exact A|exact B]. Qed.

(* ---- the buffer ---- *)
Definition tracks (size : N) (s : RDSString) (ws : writes) : Prop :=
  N.of_nat (length (s_data s)) = size /\ s_sequential_length s <= size /\ Forall (fun b => b < 256) (s_data s) /\
  (0 < s_sequential_length s ->
     in_sequence (s_sequential_length s) ws /\ (exists ws' b, ws = (ws' ++ [(s_prev_pos s, b)])%list) /\
     forall i, i < s_sequential_length s -> last_at i ws = nth_error (s_data s) (N.to_nat i)).

Lemma list_set_length : forall (A : Type) (l : list A) i x, length (list_set l i x) = length l.
Proof. intros A l. induction l as [|a l IH]; intros [|i] x; cbn [list_set length]; try reflexivity. rewrite IH. reflexivity. Qed.
Lemma list_set_nth : forall (A : Type) (l : list A) i x k, nth_error (list_set l i x) k =
  if Nat.eqb i k then (if Nat.ltb i (length l) then Some x else None) else nth_error l k.
Proof.
  intros A l. induction l as [|a l IH]; intros [|i] x [|k]; cbn [list_set nth_error length]; try reflexivity.
  - cbn [Nat.eqb]. destruct (Nat.eqb i k); reflexivity.
  - rewrite IH. reflexivity.
Qed.
Lemma list_set_Forall : forall (A : Type) (P : A -> Prop) l i x, Forall P l -> P x -> Forall P (list_set l i x).
Proof.
  intros A P l. induction l as [|a l IH]; intros [|i] x F Px; cbn [list_set]; try constructor; inversion F; subst; auto.
Qed.

Lemma new_tracks : forall n, tracks n (RDSString_new n) [].
Proof.
  intros n. unfold tracks, RDSString_new. cbn [s_data s_sequential_length]. rewrite repeat_length. split; [lia|]. split; [lia|].
  split; [|lia]. apply Forall_forall. intros x H. apply repeat_spec in H. subst. lia.
Qed.
Lemma clear_tracks : forall n s ws ws', tracks n s ws -> tracks n (s_clear s) ws'.
Proof. intros n s ws ws' (A & B & C & D). unfold tracks, s_clear. cbn [s_data s_sequential_length]. split; [exact A|]. split; [lia|]. split; [exact C|lia]. Qed.
Lemma seq0_tracks : forall n s ws ws', tracks n s ws -> s_sequential_length s = 0 -> tracks n s ws'.
Proof. intros n s ws ws' (A & B & C & D) E. split; [exact A|]. split; [exact B|]. split; [exact C|lia]. Qed.
Lemma resize_tracks : forall n s ws, tracks n s ws -> s_resize s n = s.
Proof.
  intros n [e d dt pp sq lc] ws (A & _). cbn [s_data] in A. unfold s_resize. cbn [s_encoding s_direction s_data s_prev_pos s_sequential_length s_last_complete_string].
  replace (N.to_nat n) with (length dt) by lia. rewrite Nat.sub_diag, firstn_all, app_nil_r. reflexivity.
Qed.
Lemma resize_any : forall m n s ws ws', tracks m s ws -> s_sequential_length s = 0 -> tracks n (s_resize s n) ws'.
Proof.
  intros m n s ws ws' (A & B & C & D) E. unfold tracks, s_resize. cbn [s_data s_sequential_length]. rewrite app_length, firstn_length, repeat_length.
  split; [lia|]. split; [lia|]. split; [|lia]. apply Forall_app. split.
  - apply Forall_forall. intros x H. rewrite Forall_forall in C. apply C. rewrite <- (firstn_skipn (N.to_nat n) (s_data s)). apply in_or_app. left. exact H.
  - apply Forall_forall. intros x H. apply repeat_spec in H. subst. unfold kBlankSpace. lia.
Qed.
Lemma earlier_tracks : forall n s ws pre, tracks n s ws -> tracks n s (pre ++ ws).
Proof.
  intros n s ws pre (A & B & C & D). split; [exact A|]. split; [exact B|]. split; [exact C|]. intros H. destruct (D H) as (X & (ws' & b & ->) & Z).
  split; [apply in_sequence_earlier; exact X|]. split; [exists (pre ++ ws')%list, b; rewrite app_assoc; reflexivity|].
  intros i Hi. destruct (nth_error (s_data s) (N.to_nat i)) as [v|] eqn:Ev.
  - apply last_at_earlier. rewrite Z by exact Hi. exact Ev.
  - exfalso. apply nth_error_None in Ev. lia.
Qed.

Lemma set_tracks : forall u n s ws p b, tracks n s ws -> p < n -> b < 256 -> tracks n (s_set u s p b) (ws ++ [(p, b)]).
Proof.
  intros u n s ws p b (A & B & C & D) Hp Hb. unfold s_set. rewrite A. destruct (N.leb_spec n p) as [|_]; [lia|].
  set (data := list_set (s_data s) (N.to_nat p) b).
  set (sq := if (p =? 0) || ((p =? s_prev_pos s + 1) && (s_sequential_length s =? p)) then p + 1 else s_sequential_length s).
  assert (L : N.of_nat (length data) = n) by (unfold data; rewrite list_set_length; exact A).
  assert (Fd : Forall (fun x => x < 256) data) by (apply list_set_Forall; assumption).
  assert (Core : 0 < sq -> in_sequence sq (ws ++ [(p, b)]) /\ forall i, i < sq -> last_at i (ws ++ [(p, b)]) = nth_error data (N.to_nat i)).
  { intros Hs. assert (At : forall i, i < s_sequential_length s \/ i = p -> last_at i (ws ++ [(p, b)]) = nth_error data (N.to_nat i)).
    { intros i Hi. rewrite last_at_snoc. unfold data. rewrite list_set_nth. destruct (N.eqb_spec p i) as [->|Ne].
      - rewrite Nat.eqb_refl. destruct (Nat.ltb_spec (N.to_nat i) (length (s_data s))); [reflexivity|lia].
      - destruct (Nat.eqb_spec (N.to_nat p) (N.to_nat i)); [lia|]. destruct Hi as [Hi|]; [|congruence]. destruct (D ltac:(lia)) as (_ & _ & Z). apply Z. exact Hi. }
    unfold sq in *. destruct ((p =? 0) || ((p =? s_prev_pos s + 1) && (s_sequential_length s =? p))) eqn:Ec.
    - apply orb_prop in Ec. destruct Ec as [Ec|Ec].
      + apply N.eqb_eq in Ec. subst p. split; [constructor|]. intros i Hi. apply At. lia.
      + apply andb_prop in Ec. destruct Ec as [E1 E2]. apply N.eqb_eq in E1, E2. destruct (D ltac:(lia)) as (X & (ws' & c & ->) & Z). split.
        * rewrite <- app_assoc. cbn [app]. rewrite E1. replace (s_prev_pos s + 1 + 1) with (s_prev_pos s + 2) by lia. apply in_next.
          rewrite E2, E1 in X. exact X.
        * intros i Hi. apply At. lia.
    - split; [|intros i Hi; apply At; lia]. apply orb_false_iff in Ec. destruct Ec as [Ec _]. apply N.eqb_neq in Ec.
      apply in_other; [apply D; exact Hs|exact Ec]. }
  assert (Ls : sq <= n) by (unfold sq; destruct (_ || _); lia).
  assert (T : forall lc, tracks n (mkRDSString (s_encoding s) (s_direction s) data p sq lc) (ws ++ [(p, b)])).
  { intros lc. unfold tracks. cbn [s_data s_sequential_length s_prev_pos]. split; [exact L|]. split; [exact Ls|]. split; [exact Fd|].
    intros Hs. destruct (Core Hs) as [X Z]. split; [exact X|]. split; [exists ws, b; reflexivity|exact Z]. }
  cbv zeta. destruct (s_isComplete _); [|apply T]. destruct (s_str u _); [apply T|].
  unfold tracks, s_clear. cbn [s_data s_sequential_length]. split; [exact L|]. split; [lia|]. split; [exact Fd|lia].
Qed.

(* Out of range: nothing happens *)
Lemma set_outside : forall u n s ws p b, tracks n s ws -> n <= p -> s_set u s p b = s.
Proof. intros u n s ws p b (A & _) H. unfold s_set. rewrite A. destruct (N.leb_spec n p); [reflexivity|lia]. Qed.

(* ---- a complete text ---- *)
Lemma term_le : forall d, find_terminator d <= N.of_nat (length d).
Proof. induction d as [|b d IH]; cbn [find_terminator length]; [lia|]. destruct (b =? kStringTerminator); lia. Qed.
Lemma term_none : forall d, find_terminator d = N.of_nat (length d) -> ~ In end_of_text d.
Proof.
  induction d as [|b d IH]; cbn [find_terminator length]; [intros _ []|]. destruct (N.eqb_spec b kStringTerminator) as [->|Ne]; [lia|].
  intros E [X|X]; [subst b; apply Ne; reflexivity|apply IH; [lia|exact X]].
Qed.
Lemma term_some : forall d, find_terminator d < N.of_nat (length d) ->
  exists t r, d = (t ++ end_of_text :: r)%list /\ N.of_nat (length t) = find_terminator d /\ ~ In end_of_text t.
Proof.
  induction d as [|b d IH]; cbn [find_terminator length]; [lia|]. destruct (N.eqb_spec b kStringTerminator) as [->|Ne]; intros H.
  - exists [], d. split; [reflexivity|]. split; [reflexivity|intros []].
  - destruct IH as (t & r & -> & L & Nt); [lia|]. exists (b :: t), r. split; [reflexivity|]. split; [cbn [length]; lia|].
    intros [X|X]; [subst b; apply Ne; reflexivity|exact (Nt X)].
Qed.
Lemma term_app : forall t r, ~ In end_of_text t -> find_terminator (t ++ end_of_text :: r) = N.of_nat (length t).
Proof.
  induction t as [|b t IH]; intros r H; cbn [app find_terminator length]; [reflexivity|].
  destruct (N.eqb_spec b kStringTerminator) as [->|Ne]; [exfalso; apply H; left; reflexivity|]. rewrite IH; [lia|]. intros X. apply H. right. exact X.
Qed.
Lemma term_full : forall d, ~ In end_of_text d -> find_terminator d = N.of_nat (length d).
Proof.
  induction d as [|b d IH]; intros H; cbn [find_terminator length]; [reflexivity|].
  destruct (N.eqb_spec b kStringTerminator) as [->|Ne]; [exfalso; apply H; left; reflexivity|]. rewrite IH; [lia|]. intros X. apply H. right. exact X.
Qed.

Lemma getData_visible : forall len d i sq, N.of_nat (length (firstn len d)) + i <= sq -> getData_loop d i sq len = map visible (firstn len d).
Proof.
  induction len as [|len IH]; intros [|b d] i sq H; try reflexivity. cbn [getData_loop firstn map length] in *. rewrite IH by lia. f_equal.
  destruct (N.ltb_spec i sq); [|lia]. unfold visible, kStringTerminator, end_of_text, kBlankSpace. cbn [andb].
  destruct (b =? 0); destruct (b =? 13); reflexivity.
Qed.
Lemma char_sweep : forallb (fun b => if list_eq_dec N.eq_dec (getRDSCharString b) (utf8_encode (rds_char b)) then true else false) (nseq 0 256) = true.
Proof. vm_compute. reflexivity. Qed.
Lemma char_text : forall b, b < 256 -> getRDSCharString b = utf8_encode (rds_char b).
Proof.
  intros b H. pose proof char_sweep as S. rewrite forallb_forall in S. assert (In b (nseq 0 256)) as B by (apply nseq_In; lia). specialize (S b B). cbv beta in S.
  destruct (list_eq_dec N.eq_dec (getRDSCharString b) (utf8_encode (rds_char b))) as [X|]; [exact X|discriminate].
Qed.
Lemma visible_byte : forall b, b < 256 -> visible b < 256.
Proof. intros b H. unfold visible. destruct (_ || _); lia. Qed.
Lemma visible_text : forall l, Forall (fun b => b < 256) l -> flat_map getRDSCharString (map visible l) = rds_text l.
Proof.
  induction l as [|b l IH]; intros F; [reflexivity|]. inversion F; subst. cbn [map flat_map]. unfold rds_text, utf8_text in *. cbn [map flat_map].
  rewrite IH by assumption. rewrite char_text by (apply visible_byte; assumption). reflexivity.
Qed.

(* The bytes shown *)
Definition shown_bytes (s : RDSString) : list N := firstn (N.to_nat (s_getExpectedLength s)) (s_data s).

Lemma shown_byte : forall s, Forall (fun b => b < 256) (s_data s) -> Forall (fun b => b < 256) (shown_bytes s).
Proof.
  intros s C. apply Forall_forall. intros x H. rewrite Forall_forall in C. apply C.
  rewrite <- (firstn_skipn (N.to_nat (s_getExpectedLength s)) (s_data s)). apply in_or_app. left. exact H.
Qed.

Lemma complete_data : forall s, s_isComplete s = true -> s_getData s = map visible (shown_bytes s).
Proof.
  intros s H. unfold s_isComplete, s_getReceivedLength in H. apply N.leb_le in H. unfold s_getData, shown_bytes. apply getData_visible.
  rewrite firstn_length. lia.
Qed.
Lemma complete_str : forall u s, Forall (fun b => b < 256) (s_data s) -> s_isComplete s = true ->
  match s_encoding s with
  | EncBasic => s_str u s = Some (rds_text (shown_bytes s))
  | EncUTF8 => s_str u s = Some (map visible (shown_bytes s))
  | EncUCS2 => s_str u s = u (map visible (shown_bytes s))
  end.
Proof.
  intros u s T H. unfold s_str. rewrite (complete_data s H). destruct (s_encoding s); [|reflexivity|reflexivity].
  rewrite visible_text; [reflexivity|]. exact (shown_byte s T).
Qed.

Lemma complete_spec : forall n s ws, tracks n s ws -> 0 < n -> s_isComplete s = true -> complete_text n ws (shown_bytes s).
Proof.
  intros n s ws (A & B & C & D) Hn H. unfold s_isComplete, s_getReceivedLength in H. apply N.leb_le in H.
  set (e := s_getExpectedLength s) in *.
  assert (Ee : e = N.min (find_terminator (s_data s) + 1) n) by (unfold e, s_getExpectedLength; rewrite A; reflexivity).
  pose proof (term_le (s_data s)) as Tl. rewrite A in Tl.
  assert (Ln : N.of_nat (length (shown_bytes s)) = e) by (unfold shown_bytes; fold e; rewrite firstn_length; lia).
  destruct (D ltac:(lia)) as (X & _ & Z). split; [split|].
  - rewrite Ln. apply (in_sequence_shorter _ _ X); lia.
  - intros i b Hi. assert (i < length (shown_bytes s))%nat by (apply nth_error_Some; congruence). rewrite Z by lia. rewrite Nat2N.id.
    unfold shown_bytes in Hi. fold e in Hi. rewrite <- Hi. rewrite <- (firstn_skipn (N.to_nat e) (s_data s)) at 1. apply nth_error_app1. unfold shown_bytes in H0. fold e in H0. exact H0.
  - destruct (N.eq_dec (find_terminator (s_data s)) n) as [E|Ne].
    + left. split; [lia|]. unfold shown_bytes. fold e. replace (N.to_nat e) with (length (s_data s)) by lia. rewrite firstn_all.
      apply term_none. lia.
    + right. destruct (term_some (s_data s)) as (t & r & Ed & Lt & Nt); [lia|]. exists t. split; [|exact Nt].
      unfold shown_bytes. fold e. rewrite Ed. replace (N.to_nat e) with (length (t ++ [end_of_text])) by (rewrite app_length; cbn [length]; lia).
      change (end_of_text :: r) with ([end_of_text] ++ r)%list. rewrite app_assoc, firstn_app, firstn_all, Nat.sub_diag. cbn [firstn]. apply app_nil_r.
Qed.

(* After a character was stored, the last complete text is current *)
Lemma set_last : forall u n s p b, N.of_nat (length (s_data s)) = n -> p < n -> s_isComplete (s_set u s p b) = true ->
  0 < n -> s_str u (s_set u s p b) = Some (s_last_complete_string (s_set u s p b)).
Proof.
  intros u n s p b A Hp H Hn. unfold s_set in *. rewrite A in *. destruct (N.leb_spec n p) as [|_]; [lia|].
  cbv zeta in *. destruct (s_isComplete (mkRDSString _ _ _ (s_prev_pos s) _ _)) eqn:E1.
  - destruct (s_str u (mkRDSString _ _ _ (s_prev_pos s) _ _)) as [t|] eqn:E2.
    + cbn [s_last_complete_string]. rewrite <- E2. reflexivity.
    + exfalso. unfold s_isComplete, s_getReceivedLength, s_clear, s_getExpectedLength in H. cbn [s_data s_sequential_length] in H.
      rewrite list_set_length in H. apply N.leb_le in H. lia.
  - exfalso. unfold s_isComplete, s_getReceivedLength, s_getExpectedLength in H, E1. cbn [s_data s_sequential_length] in H, E1. congruence.
Qed.
Lemma set_encoding : forall u s p b, s_encoding (s_set u s p b) = s_encoding s.
Proof. intros u s p b. unfold s_set. destruct (_ <=? p); [reflexivity|]. cbv zeta. destruct (s_isComplete _); [|reflexivity]. destruct (s_str u _); reflexivity. Qed.

(* Storing several characters *)
Definition set_all (u : bytes -> option bytes) (s : RDSString) (ws : writes) : RDSString :=
  fold_left (fun s pb => s_set u s (fst pb) (snd pb)) ws s.

Lemma set_all_tracks : forall u n ws' s ws, tracks n s ws -> Forall (fun pb => fst pb < n /\ snd pb < 256) ws' -> tracks n (set_all u s ws') (ws ++ ws').
Proof.
  intros u n ws'. induction ws' as [|[p b] r IH]; intros s ws T F; [rewrite app_nil_r; exact T|].
  inversion F as [|? ? [Fp Fb] Fr]; subst. cbn [fst snd] in *. change ((p, b) :: r) with ([(p, b)] ++ r)%list. rewrite app_assoc. cbn [set_all fold_left app].
  apply IH; [apply set_tracks; assumption|exact Fr].
Qed.
Lemma set_all_encoding : forall u ws s, s_encoding (set_all u s ws) = s_encoding s.
Proof. intros u. induction ws as [|[p b] r IH]; intros s; [reflexivity|]. unfold set_all in *. cbn [fold_left fst snd]. rewrite IH. apply set_encoding. Qed.
(* A text received from its first character on, whatever the buffer held *)
Definition sized (n : N) (s : RDSString) : Prop := N.of_nat (length (s_data s)) = n /\ Forall (fun b => b < 256) (s_data s).
Lemma tracks_sized : forall n s ws, tracks n s ws -> sized n s.
Proof. intros n s ws (A & _ & C & _). split; assumption. Qed.
Lemma set_data : forall u n s p b, sized n s -> s_data (s_set u s p b) = if p <? n then list_set (s_data s) (N.to_nat p) b else s_data s.
Proof.
  intros u n s p b [A _]. unfold s_set. rewrite A. destruct (N.leb_spec n p); destruct (N.ltb_spec p n); try lia; [reflexivity|].
  cbv zeta. destruct (s_isComplete _); [|reflexivity]. destruct (s_str u _); reflexivity.
Qed.
Lemma set_sized : forall u n s p b, sized n s -> b < 256 -> sized n (s_set u s p b).
Proof.
  intros u n s p b S B. pose proof S as [A C]. unfold sized. rewrite (set_data u n s p b S). destruct (p <? n); [|split; assumption].
  rewrite list_set_length. split; [exact A|apply list_set_Forall; assumption].
Qed.
Lemma set_all_sized : forall u n ws s, sized n s -> Forall (fun pb => snd pb < 256) ws -> sized n (set_all u s ws).
Proof.
  intros u n. induction ws as [|[p b] r IH]; intros s S F; [exact S|]. inversion F; subst. unfold set_all. cbn [fold_left fst snd].
  apply IH; [apply set_sized; assumption|assumption].
Qed.
Lemma resize_sized : forall m n s, sized m s -> sized n (s_resize s n).
Proof.
  intros m n s [A C]. unfold sized, s_resize. cbn [s_data]. rewrite app_length, firstn_length, repeat_length. split; [lia|].
  apply Forall_app. split.
  - apply Forall_forall. intros x H. rewrite Forall_forall in C. apply C. rewrite <- (firstn_skipn (N.to_nat n) (s_data s)). apply in_or_app. left. exact H.
  - apply Forall_forall. intros x H. apply repeat_spec in H. subst. unfold kBlankSpace. lia.
Qed.
Lemma resize_same : forall n s, sized n s -> s_resize s n = s.
Proof.
  intros n [e d dt pp sq lc] (A & _). cbn [s_data] in A. unfold s_resize. cbn [s_encoding s_direction s_data s_prev_pos s_sequential_length s_last_complete_string].
  replace (N.to_nat n) with (length dt) by lia. rewrite Nat.sub_diag, firstn_all, app_nil_r. reflexivity.
Qed.
Lemma clear_sized : forall n s, sized n s -> sized n (s_clear s).
Proof. intros n s H. exact H. Qed.
Lemma set_all_last : forall u n ws' s, sized n s -> 0 < n -> ws' <> [] -> Forall (fun pb => fst pb < n /\ snd pb < 256) ws' ->
  s_isComplete (set_all u s ws') = true -> s_str u (set_all u s ws') = Some (s_last_complete_string (set_all u s ws')).
Proof.
  intros u n ws' s T Hn Ne F. destruct (exists_last Ne) as (r & [p b] & ->). apply Forall_app in F. destruct F as [Fr Fp]. inversion Fp as [|? ? [A B] _]; subst.
  cbn [fst snd] in *. unfold set_all. rewrite fold_left_app. cbn [fold_left fst snd]. fold (set_all u s r). intros H.
  eapply (set_last u n); [|exact A|exact H|exact Hn]. apply (set_all_sized u n r s T). clear -Fr. induction Fr as [|x l [_ X] _ IH]; constructor; assumption.
Qed.
Lemma place_app : forall a b p, place p (a ++ b) = (place p a ++ place (p + N.of_nat (length a)) b)%list.
Proof.
  induction a as [|x a IH]; intros b p; cbn [app place length]; [f_equal; lia|]. rewrite IH. do 2 f_equal. f_equal. lia.
Qed.
Lemma place_ok : forall l p n, p + N.of_nat (length l) <= n -> Forall (fun b => b < 256) l -> Forall (fun pb => fst pb < n /\ snd pb < 256) (place p l).
Proof.
  induction l as [|x l IH]; intros p n H F; cbn [place]; constructor; inversion F; subst; cbn [length] in H.
  - cbn [fst snd]. split; [lia|assumption].
  - apply IH; [lia|assumption].
Qed.
Lemma place_byte : forall l p, Forall (fun b => b < 256) l -> Forall (fun pb => snd pb < 256) (place p l).
Proof. induction l as [|x l IH]; intros p F; cbn [place]; constructor; inversion F; subst; [assumption|apply IH; assumption]. Qed.
Lemma basic_str : forall u s, s_encoding s <> EncUCS2 -> exists t, s_str u s = Some t.
Proof. intros u s H. unfold s_str. destruct (s_encoding s); [eexists; reflexivity|congruence|eexists; reflexivity]. Qed.
Lemma list_set_firstn : forall (A : Type) (l : list A) i x, (i < length l)%nat -> firstn (S i) (list_set l i x) = (firstn i l ++ [x])%list.
Proof.
  intros A l. induction l as [|a l IH]; intros [|i] x H; cbn [length] in H; try lia; [reflexivity|].
  cbn [list_set]. change (firstn (S (S i)) (a :: list_set l i x)) with (a :: firstn (S i) (list_set l i x)). rewrite IH by lia. reflexivity.
Qed.
Lemma set_basic : forall u n s p b, sized n s -> s_encoding s <> EncUCS2 -> p < n ->
  s_data (s_set u s p b) = list_set (s_data s) (N.to_nat p) b /\ s_prev_pos (s_set u s p b) = p /\
  s_sequential_length (s_set u s p b) =
    if (p =? 0) || ((p =? s_prev_pos s + 1) && (s_sequential_length s =? p)) then p + 1 else s_sequential_length s.
Proof.
  intros u n s p b (A & _) E Hp. unfold s_set. rewrite A. destruct (N.leb_spec n p) as [|_]; [lia|]. cbv zeta.
  destruct (s_isComplete _); [|repeat split]. destruct (basic_str u (mkRDSString (s_encoding s) (s_direction s) (list_set (s_data s) (N.to_nat p) b) (s_prev_pos s)
    (if (p =? 0) || ((p =? s_prev_pos s + 1) && (s_sequential_length s =? p)) then p + 1 else s_sequential_length s) (s_last_complete_string s)) E) as (t & ->). repeat split.
Qed.
Lemma set_run : forall u n l s, sized n s -> s_encoding s <> EncUCS2 -> N.of_nat (length l) <= n -> Forall (fun b => b < 256) l -> l <> [] ->
  let s' := set_all u s (place 0 l) in
  s_sequential_length s' = N.of_nat (length l) /\ s_prev_pos s' + 1 = N.of_nat (length l) /\ firstn (length l) (s_data s') = l.
Proof.
  intros u n l s T E. cbv zeta. induction l as [|b l IH] using rev_ind; intros L F Ne; [congruence|].
  rewrite app_length in *. cbn [length] in *. apply Forall_app in F. destruct F as [Fl Fb].
  assert (T' : sized n (set_all u s (place 0 l))) by (apply set_all_sized; [exact T|apply place_byte; exact Fl]).
  rewrite place_app. unfold set_all. rewrite fold_left_app. fold (set_all u s (place 0 l)). cbn [place fold_left fst snd].
  destruct (set_basic u n _ (0 + N.of_nat (length l)) b T' ltac:(rewrite set_all_encoding; exact E) ltac:(lia)) as (D & P & Q).
  rewrite D, P, Q. split; [|split; [lia|]].
  - destruct l as [|a l]; [reflexivity|]. destruct (IH ltac:(lia) Fl ltac:(discriminate)) as (I1 & I2 & _).
    rewrite <- I1. rewrite <- I2 in I1. rewrite I1. rewrite N.add_0_l, !N.eqb_refl. cbn [andb]. rewrite orb_true_r. lia.
  - replace (N.to_nat (0 + N.of_nat (length l))) with (length l) by lia. rewrite Nat.add_1_r. destruct T' as (A & _). rewrite list_set_firstn by lia. f_equal.
    destruct l as [|a l]; [reflexivity|]. apply IH; [lia|exact Fl|discriminate].
Qed.

(* ... is shown when it is complete *)
Lemma run_bytes : forall u n s l t r, sized n s -> s_encoding s <> EncUCS2 -> 0 < n -> Forall (fun b => b < 256) l ->
  l = (t ++ end_of_text :: r)%list -> N.of_nat (length l) <= n -> ~ In end_of_text t ->
  let s' := set_all u s (place 0 l) in
  s_isComplete s' = true /\ s_str u s' = Some (s_last_complete_string s') /\ shown_bytes s' = (t ++ [end_of_text])%list /\ Forall (fun b => b < 256) (s_data s').
Proof.
  intros u n s l t r T E Hn F -> L Nt s'.
  assert (Ne : (t ++ end_of_text :: r)%list <> []) by (destruct t; discriminate).
  destruct (set_run u n _ s T E L F Ne) as (Q & P & D). fold s' in Q, P, D.
  pose proof (set_all_sized u n _ _ T (place_byte _ 0 F)) as T'. fold s' in T'.
  assert (Ed : s_data s' = (t ++ end_of_text :: (r ++ skipn (length (t ++ end_of_text :: r)) (s_data s')))%list).
  { rewrite <- (firstn_skipn (length (t ++ end_of_text :: r)) (s_data s')) at 1. rewrite D, <- app_assoc. reflexivity. }
  assert (Ee : s_getExpectedLength s' = N.of_nat (length t) + 1).
  { unfold s_getExpectedLength. destruct T' as (A & _). rewrite A, Ed, term_app by exact Nt. rewrite app_length in L. cbn [length] in L. lia. }
  assert (C : s_isComplete s' = true).
  { unfold s_isComplete, s_getReceivedLength. rewrite Ee, Q, app_length. cbn [length]. apply N.leb_le. lia. }
  split; [exact C|]. pose proof (set_all_last u n (place 0 (t ++ end_of_text :: r)) s T Hn) as S.
  assert (place 0 (t ++ end_of_text :: r) <> []) as Np by (destruct t; discriminate).
  specialize (S Np (place_ok _ 0 n L F) C). fold s' in S. split; [exact S|]. split; [|exact (proj2 T')].
  unfold shown_bytes. rewrite Ee, Ed. replace (N.to_nat (N.of_nat (length t) + 1)) with (length (t ++ [end_of_text])) by (rewrite app_length; cbn [length]; lia).
  generalize (r ++ skipn (length (t ++ end_of_text :: r)) (s_data s'))%list. intros rest.
  replace (t ++ end_of_text :: rest)%list with ((t ++ [end_of_text]) ++ rest)%list by (rewrite <- app_assoc; reflexivity).
  rewrite firstn_app, firstn_all, Nat.sub_diag. cbn [firstn]. rewrite app_nil_r. reflexivity.
Qed.
Lemma full_bytes : forall u n s l, sized n s -> s_encoding s <> EncUCS2 -> 0 < n -> Forall (fun b => b < 256) l ->
  N.of_nat (length l) = n -> ~ In end_of_text l ->
  let s' := set_all u s (place 0 l) in
  s_isComplete s' = true /\ s_str u s' = Some (s_last_complete_string s') /\ shown_bytes s' = l /\ Forall (fun b => b < 256) (s_data s').
Proof.
  intros u n s l T E Hn F L Nt s'. assert (Ne : l <> []) by (intros ->; cbn in L; lia).
  destruct (set_run u n l s T E ltac:(lia) F Ne) as (Q & P & D). fold s' in Q, P, D.
  pose proof (set_all_sized u n _ _ T (place_byte l 0 F)) as T'. fold s' in T'.
  assert (Ed : s_data s' = l). { destruct T' as (A & _). rewrite <- D. replace (length l) with (length (s_data s')) by lia. symmetry. apply firstn_all. }
  assert (Ee : s_getExpectedLength s' = n). { unfold s_getExpectedLength. rewrite Ed, term_full by exact Nt. lia. }
  assert (C : s_isComplete s' = true). { unfold s_isComplete, s_getReceivedLength. rewrite Ee, Q. apply N.leb_le. lia. }
  split; [exact C|]. pose proof (set_all_last u n (place 0 l) s T Hn) as S.
  assert (place 0 l <> []) as Np by (destruct l; [congruence|discriminate]).
  specialize (S Np (place_ok l 0 n ltac:(lia) F) C). fold s' in S. split; [exact S|]. split; [|exact (proj2 T')].
  unfold shown_bytes. rewrite Ee, Ed. replace (N.to_nat n) with (length l) by lia. apply firstn_all.
Qed.
Lemma run_shown : forall u n s l t r, sized n s -> s_encoding s = EncBasic -> 0 < n -> Forall (fun b => b < 256) l ->
  l = (t ++ end_of_text :: r)%list -> N.of_nat (length l) <= n -> ~ In end_of_text t ->
  let s' := set_all u s (place 0 l) in
  s_isComplete s' = true /\ s_last_complete_string s' = (rds_text t ++ [32])%list.
Proof.
  intros u n s l t r T E Hn F El L Nt s'. destruct (run_bytes u n s l t r T ltac:(congruence) Hn F El L Nt) as (C & S & B & Fb). fold s' in C, S, B, Fb.
  split; [exact C|]. pose proof (complete_str u s' Fb C) as X. unfold s' in X at 1. rewrite set_all_encoding, E in X. rewrite S in X. injection X as ->. rewrite B.
  unfold rds_text, utf8_text. rewrite map_app, flat_map_app. reflexivity.
Qed.
Lemma run_full : forall u n s l, sized n s -> s_encoding s = EncBasic -> 0 < n -> Forall (fun b => b < 256) l ->
  N.of_nat (length l) = n -> ~ In end_of_text l ->
  let s' := set_all u s (place 0 l) in
  s_isComplete s' = true /\ s_last_complete_string s' = rds_text l.
Proof.
  intros u n s l T E Hn F L Nt s'. destruct (full_bytes u n s l T ltac:(congruence) Hn F L Nt) as (C & S & B & Fb). fold s' in C, S, B, Fb.
  split; [exact C|]. pose proof (complete_str u s' Fb C) as X. unfold s' in X at 1. rewrite set_all_encoding, E in X. rewrite S in X. injection X as ->. rewrite B. reflexivity.
Qed.
