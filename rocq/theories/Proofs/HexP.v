(* Hex output read back as hex input; the TEF reader; options; the audio reader. *)
From Verif.Model Require Import Base Util Float Group Options Tmc Station Input Csv Dsp Channel.
From Verif.Spec Require Import Numerals Inputs Session Identity.
From Verif.Proofs Require Import Tac Numerals UpdateP SessionP ChannelP InputP DspP.

Local Open Scope string_scope.
Local Open Scope N_scope.
Local Open Scope list_scope.

Definition something (x : Z * Group * N) : bool := negb (g_isEmpty (snd (fst x))).
Definition hex_text (env : Env) (o : Options) (g : Group) : bytes :=
  (if 0 <? g_data_stream g then bs "#S" ++ dec_string (g_data_stream g) ++ bs " " else []) ++ g_printHex g ++
  (if o_timestamp o then [32] ++ getTimePointString env (g_time_received g) (o_time_format o) else []).
Definition hex_ok (g : Group) : Prop := g_data_stream g <= 3 /\ forall n, block_of g n.
Lemma printed_hex : forall env o gs c c' out, o_output_type o = OutHex -> run_groups env o c gs = Ok (c', out) -> Forall received_group gs -> Forall (fun x => snd x <= 3) gs ->
  exists xs, printed out = map (hex_text env o) xs /\ Forall hex_ok xs /\
    Forall2 (fun x g => g_data_stream g = snd x /\ forall n, received g n = received (snd (fst x)) n) (filter something gs) xs.
Proof.
  intros env o. induction gs as [|[[now g] w] gs IH]; intros c c' out OH R F W; cbn [run_groups] in R.
  - injection R as _ <-. exists []. repeat constructor.
  - rewrite process_eq, OH in R. cbv zeta in R. cbn [bind] in R.
    match type of R with context [run_groups env o ?x gs] => destruct (run_groups env o x gs) as [[c2 o2]| |] eqn:R2; cbn [bind] in R; try discriminate end. injection R as _ <-.
    pose proof (Forall_inv F) as (_ & D1 & D2 & D3 & D4). pose proof (Forall_inv W) as Hw. cbn [snd] in Hw.
    destruct (IH _ _ _ OH R2 (Forall_inv_tail F) (Forall_inv_tail W)) as (xs & E & H & F2). set (g' := prepared o now c g w) in *.
    assert (Em : g_isEmpty g' = g_isEmpty g) by (unfold g_isEmpty, g_has, g'; rewrite !prepared_block; reflexivity).
    cbn [filter something fst snd]. unfold something at 1. cbn [fst snd]. cbn [printed flat_map]. unfold printAsHex. rewrite Em. destruct (g_isEmpty g); cbn [negb].
    + exists xs. split; [exact E|]. split; assumption.
    + exists (g' :: xs). cbn [map]. split; [|split].
      * change (flat_map _ o2) with (printed o2). rewrite E. reflexivity.
      * constructor; [|exact H]. split; [unfold g', prepared, streamed; cbn [g_data_stream g_setDataStream]; exact Hw|].
        intros n _. unfold g'. rewrite prepared_block. destruct n; assumption.
      * constructor; [|exact F2]. cbn [snd fst]. split; [reflexivity|]. intros n. unfold received, g'. rewrite prepared_block. reflexivity.
Qed.
Lemma no_lf_hex : forall g n, ~ In 10 (blk_hex (g_block g n)).
Proof.
  intros g n. unfold blk_hex. destruct (blk_is_received _); [|intros I; vm_compute in I; intuition discriminate].
  intros I. pose proof (getHexString_char 4 (blk_data (g_block g n))) as F. rewrite Forall_forall in F. specialize (F 10 I). lia.
Qed.
Lemma hex_text_line : forall env o g, g_data_stream g <= 3 -> (o_timestamp o = true -> forall t, ~ In 10 (getTimePointString env t (o_time_format o))) -> ~ In 10 (hex_text env o g).
Proof.
  intros env o g S T. unfold hex_text. rewrite in_app_iff. intros [I|I].
  - assert (H4 : g_data_stream g = 0 \/ g_data_stream g = 1 \/ g_data_stream g = 2 \/ g_data_stream g = 3) by lia.
    destruct H4 as [E|[E|[E|E]]]; rewrite E in I; vm_compute in I; intuition discriminate.
  - unfold g_printHex in I. rewrite !in_app_iff in I. cbn [In] in I.
    pose proof (no_lf_hex g BLOCK1) as N1. pose proof (no_lf_hex g BLOCK2) as N2. pose proof (no_lf_hex g BLOCK3) as N3. pose proof (no_lf_hex g BLOCK4) as N4. cbn [g_block] in N1, N2, N3, N4.
    assert (N5 : ~ In 10 (if o_timestamp o then [32] ++ getTimePointString env (g_time_received g) (o_time_format o) else [])).
    { destruct (o_timestamp o) eqn:E; [|intros []]. intros [X|X]; [discriminate|exact (T eq_refl _ X)]. }
    intuition discriminate.
Qed.
Lemma hex_read_back : forall env o o' clock gs c c' out, o_output_type o = OutHex -> run_groups env o c gs = Ok (c', out) ->
  Forall received_group gs -> Forall (fun x => snd x <= 3) gs ->
  (o_timestamp o = true -> forall t, ~ In 10 (getTimePointString env t (o_time_format o))) ->
  exists gs' last, read_hex_input o' clock (concat (map (fun l => l ++ [10]) (printed out))) = gs' ++ [last] /\
    Forall2 (fun x g => g_data_stream g = snd x /\ forall n, received g n = received (snd (fst x)) n) (filter something gs) gs' /\
    g_data_stream last = 0 /\ forall n, received last n = None.
Proof.
  intros env o o' clock gs c c' out OH R F W T. destruct (printed_hex _ _ _ _ _ _ OH R F W) as (xs & -> & H & F2). rewrite map_map.
  destruct (read_lines Group hex_ok (fun x g => g_data_stream g = g_data_stream x /\ forall n, received g n = received x n) (hex_text env o) o') with (xs := xs) (clock := clock) as (gs' & last & E & F3 & L).
  - intros x [X _]. apply hex_text_line; assumption.
  - intros x now rest [X B]. unfold hex_text. apply (hex_round_trip o' now x _ rest X B). destruct (o_timestamp o); [right; eexists; reflexivity|left; reflexivity].
  - exact H.
  - exists gs', last. split; [exact E|]. split; [|exact L]. clear - F2 F3. revert gs' F3. induction F2 as [|x g xs' gs0 Hx _ IH]; intros gs' F3; inversion F3; subst; constructor; [|apply IH; assumption].
    destruct Hx as [A B]. match goal with H : _ /\ _ |- _ => destruct H as [C D] end. split; [congruence|]. intros n. rewrite D. apply B.
Qed.

(* ---- TEF ---- *)
Lemma tef_flags : forall line g g', parse_R line g = Some g' -> exists b2 b3 b4 e,
  stol16 (firstn 4 (skipn 1 line)) = Some b2 /\ stol16 (firstn 4 (skipn 5 line)) = Some b3 /\ stol16 (firstn 4 (skipn 9 line)) = Some b4 /\
  stol16 (firstn 2 (skipn 13 line)) = Some e /\
  received g' BLOCK2 = (if (z_u32 e / 16) mod 256 =? 0 then Some (z_u16 b2) else None) /\
  received g' BLOCK3 = (if (z_u32 e / 4) mod 256 =? 0 then Some (z_u16 b3) else None) /\
  received g' BLOCK4 = (if z_u32 e mod 256 =? 0 then Some (z_u16 b4) else None) /\ received g' BLOCK1 = received g BLOCK1.
Proof.
  intros line g g' P. unfold parse_R in P. destruct (stol16 (firstn 4 (skipn 1 line))) as [b2|]; [|discriminate]. destruct (stol16 (firstn 4 (skipn 5 line))) as [b3|]; [|discriminate].
  destruct (stol16 (firstn 4 (skipn 9 line))) as [b4|]; [|discriminate]. destruct (stol16 (firstn 2 (skipn 13 line))) as [e|]; [|discriminate]. cbv zeta in P.
  match type of P with Some ?x = _ => assert (X : x = g') by congruence; rewrite <- X; clear P X end. exists b2, b3, b4, e. do 4 (split; [reflexivity|]). unfold received. rewrite !setBlock_block. cbn [blockNumber_eqb]. unfold plain_block. cbn [blk_is_received blk_data].
  change 0xFF with (N.ones 8). rewrite !N.land_ones, !N.shiftr_div_pow2. change (2 ^ 4) with 16. change (2 ^ 2) with 4. change (2 ^ 8) with 256. change (2 ^ 0) with 1. rewrite N.div_1_r.
  do 4 (try split); reflexivity.
Qed.

(* ---- audio ---- *)
Lemma every_app : forall (A : Type) n (a b : list A) k, (1 <= n)%nat -> (k < n)%nat -> (length a mod n = 0)%nat -> every n k (a ++ b) = every n k a ++ every n k b.
Proof.
  intros A n a b k Hn Hk Hl.
  assert (G : forall (a : list A) k, (k < n)%nat -> every n k (a ++ b) = every n k a ++ every n ((n + k - length a mod n) mod n) b).
  { clear Hl k Hk a. induction a as [|x a IH]; intros k Hk; cbn [app every length].
    - rewrite Nat.mod_0_l by lia. rewrite Nat.sub_0_r. replace ((n + k) mod n)%nat with k; [reflexivity|]. rewrite <- Nat.add_mod_idemp_l, Nat.mod_same, Nat.add_0_l, Nat.mod_small by lia. reflexivity.
    - assert (M : forall j, (j < n)%nat -> ((n + j - length a mod n) mod n = (n + (if (j =? n - 1)%nat then 0 else S j) - S (length a) mod n) mod n)%nat).
      { intros j Hj. pose proof (Nat.mod_upper_bound (length a) n ltac:(lia)) as U. rewrite <- (Nat.add_1_l (length a)), <- Nat.add_mod_idemp_r by lia. set (m := (length a mod n)%nat) in *. clearbody m.
        destruct (Nat.eqb_spec j (n - 1)) as [E|E]; destruct (Nat.eq_dec m (n - 1)) as [E2|E2].
        - rewrite E2. replace (1 + (n - 1))%nat with n by lia. rewrite Nat.mod_same by lia. rewrite E. f_equal. lia.
        - rewrite (Nat.mod_small (1 + m)) by lia. rewrite E. replace (n + (n - 1) - m)%nat with (n + 0 - (1 + m) + 1 * n)%nat by lia. apply Nat.mod_add. lia.
        - rewrite E2. replace (1 + (n - 1))%nat with n by lia. rewrite Nat.mod_same by lia. replace (n + S j - 0)%nat with (n + j - (n - 1) + 1 * n)%nat by lia. symmetry. apply Nat.mod_add. lia.
        - rewrite (Nat.mod_small (1 + m)) by lia. f_equal. lia. }
      destruct k as [|j].
      + cbn [app]. f_equal. rewrite IH by lia. f_equal. f_equal. rewrite M by lia. rewrite Nat.eqb_refl. reflexivity.
      + rewrite IH by lia. f_equal. f_equal. rewrite M by lia. destruct (Nat.eqb_spec j (n - 1)); [lia|reflexivity]. }
  rewrite G by exact Hk. f_equal. f_equal. rewrite Hl, Nat.sub_0_r. rewrite <- Nat.add_mod_idemp_l, Nat.mod_same, Nat.add_0_l, Nat.mod_small by lia. reflexivity.
Qed.
Lemma every_skip : forall (A : Type) n (l : list A) k, every n k l = every n 0 (skipn k l).
Proof. intros A n l. induction l as [|x l IH]; intros [|k]; cbn [every skipn]; try reflexivity. apply IH. Qed.
Lemma every_nth : forall (A : Type) n m (l : list A) k, (1 <= n)%nat -> (k < n)%nat -> length l = (m * n)%nat ->
  length (every n k l) = m /\ forall i, (i < m)%nat -> nth_error (every n k l) i = nth_error l (k + i * n).
Proof.
  intros A n. induction m as [|m IH]; intros l k Hn Hk L.
  - destruct l; [|discriminate]. split; [reflexivity|]. intros i Hi. lia.
  - assert (Ls : l = firstn n l ++ skipn n l) by (symmetry; apply firstn_skipn). assert (Lf : length (firstn n l) = n) by (apply firstn_length_le; lia).
    assert (Lk : length (skipn n l) = (m * n)%nat) by (rewrite skipn_length; lia).
    destruct (nth_error l k) as [x|] eqn:Ex; [|apply nth_error_None in Ex; lia].
    assert (E1 : every n k (firstn n l) = [x]).
    { assert (X : nth_error (firstn n l) k = Some x) by (rewrite Ls in Ex; rewrite nth_error_app1 in Ex by lia; exact Ex).
      apply nth_error_split in X. destruct X as (a & b & E & La). rewrite E in Lf |- *. rewrite app_length in Lf. cbn [length] in Lf. rewrite every_skip, <- La, skipn_app, skipn_all, Nat.sub_diag. cbn [app skipn every].
      f_equal. assert (Sh : forall c j, (length c <= j)%nat -> every n j c = @nil A) by (induction c as [|y c IHc]; intros [|j] Hj; cbn [every length] in *; try reflexivity; [lia|apply IHc; lia]). apply Sh. lia. }
    destruct (IH (skipn n l) k Hn Hk Lk) as [I1 I2]. rewrite Ls at 1. assert (Ea : every n k l = x :: every n k (skipn n l)).
    { rewrite Ls at 1. rewrite every_app, E1 by (try lia; rewrite Lf; apply Nat.mod_same; lia). reflexivity. }
    rewrite <- Ls, Ea. split; [cbn [length]; rewrite I1; reflexivity|]. intros [|i] Hi; cbn [nth_error]; [rewrite Nat.mul_0_l, Nat.add_0_r; symmetry; exact Ex|].
    rewrite I2 by lia. rewrite Ls at 2. rewrite nth_error_app2 by lia. f_equal. rewrite Lf. lia.
Qed.
Lemma deinterleave_every : forall (A : Type) n m (l : list A) k, (1 <= n)%nat -> (k < n)%nat -> length l = (m * n)%nat ->
  deinterleave m (N.of_nat n) (N.of_nat k) l = Ok (every n k l).
Proof.
  intros A n m l k Hn Hk L. destruct (every_nth A n m l k Hn Hk L) as [L1 N1].
  assert (G : forall j i, (i + j = m)%nat -> deinterleave j (N.of_nat n) (N.of_nat (k + i * n)) l = Ok (skipn i (every n k l))).
  { induction j as [|j IH]; intros i E; cbn [deinterleave].
    - rewrite skipn_all2 by lia. reflexivity.
    - assert (Hi : (i < m)%nat) by lia. specialize (N1 i Hi). destruct (nth_error (every n k l) i) as [x|] eqn:X; [|apply nth_error_None in X; lia].
      unfold arr_get. rewrite Nat2N.id, <- N1. cbn [bind]. replace (N.of_nat (k + i * n) + N.of_nat n) with (N.of_nat (k + S i * n)) by lia. rewrite IH by lia. cbn [bind].
      f_equal. clear - X. revert i X. generalize (every n k l). intros q. induction q as [|y q IHq]; intros [|i] X; try discriminate; [injection X as ->; reflexivity|]. cbn [skipn]. apply IHq. exact X. }
  specialize (G m O eq_refl). cbn [Nat.mul skipn] in G. rewrite Nat.add_0_r in G. exact G.
Qed.
(* A full chunk *)
Lemma chunk_channel : forall (A : Type) (r : MPXReader A) channel, 1 <= mr_num_channels r -> channel < mr_num_channels r -> mr_is_eof r = false ->
  (exists m, length (mr_buffer r) = (m * N.to_nat (mr_num_channels r))%nat) ->
  exists t, readChunk r channel = Ok (every (N.to_nat (mr_num_channels r)) (N.to_nat channel) (mr_buffer r), t).
Proof.
  intros A r channel N1 C E (m & L). unfold readChunk. replace (mr_num_channels r <=? channel) with false by lia. rewrite E.
  destruct (N.eqb_spec (mr_num_channels r) 1) as [O1|O1].
  - exists (mr_buffer_time r). f_equal. f_equal. rewrite O1. replace channel with 0 by lia. change (N.to_nat 1) with 1%nat. change (N.to_nat 0) with 0%nat.
    generalize (mr_buffer r). intros q. induction q as [|x q IH]; [reflexivity|]. cbn [every]. f_equal. exact IH.
  - exists (mr_singlechan_time r). rewrite L. replace (N.to_nat (N.of_nat (m * N.to_nat (mr_num_channels r)) / mr_num_channels r)) with m.
    2: { rewrite Nat2N.inj_mul, N2Nat.id, N.div_mul by lia. lia. }
    rewrite <- (N2Nat.id (mr_num_channels r)) at 1. rewrite <- (N2Nat.id channel) at 1. rewrite deinterleave_every with (m := m) by (try exact L; lia). reflexivity.
Qed.

(* ---- options ---- *)
Definition sane (o : Options) : Prop := 1 <= o_num_channels o <= 32 /\
  (o_is_rate_defined o = true -> SFltb (o_samplerate o) kMinimumSampleRate = false /\ SFltb kMaximumSampleRate (o_samplerate o) = false).
(* what an accepted option must satisfy *)
Definition opt_ok (ne : NumEnv) (op : Opt) : Prop :=
  (forall arg, op = OptChar "c"%char arg -> 1 <= fst (ne_strtoul ne arg) mod 2 ^ 32 <= 32 /\ snd (ne_strtoul ne arg) = false) /\
  (forall arg, op = OptChar "r"%char arg -> let rate := f32_mul (fst (ne_strtof ne arg)) (rate_factor arg) in
     SFltb rate kMinimumSampleRate = false /\ SFltb kMaximumSampleRate rate = false /\ snd (ne_strtof ne arg) = false).
Lemma apply_sane : forall ne o fec er op o' fec' er', sane o -> apply_opt ne (o, fec, er) op = Ok (o', fec', er') -> sane o' /\ opt_ok ne op.
Proof.
  intros ne o fec er op o' fec' er' S A.
  assert (Sm : forall x, Ok (x, fec, er) = Ok (o', fec', er') -> o_num_channels x = o_num_channels o -> o_is_rate_defined x = o_is_rate_defined o -> o_samplerate x = o_samplerate o -> sane o').
  { intros x E E1 E2 E3. injection E as <- _ _. destruct S as [S1 S2]. split; [rewrite E1; exact S1|]. rewrite E2, E3. exact S2. }
  destruct op as [|c arg]; [injection A as <- _ _; split; [exact S|]; split; intros arg X; discriminate X|].
  destruct (ascii_dec c "c"%char) as [->|Nc].
  { unfold apply_opt in A. destruct (ne_strtoul ne arg) as [v e] eqn:V. cbv zeta in A.
    destruct (er || e || (u32 v <? 1) || (32 <? u32 v)) eqn:Q; [discriminate|]. injection A as <- _ _.
    assert (U : u32 v = v mod 2 ^ 32) by (unfold u32; try rewrite N.land_ones; reflexivity).
    apply orb_false_iff in Q; destruct Q as [Q Q3]. apply orb_false_iff in Q; destruct Q as [Q Q2]. apply orb_false_iff in Q; destruct Q as [Q0 Q1]. split.
    - split; [cbn; lia|]. exact (proj2 S).
    - split; [|intros arg' X; discriminate X]. intros arg' X. injection X as <-. rewrite V. cbn [fst snd]. rewrite <- U. split; [lia|exact Q1]. }
  destruct (ascii_dec c "r"%char) as [->|Nr].
  { unfold apply_opt in A. destruct (ne_strtof ne arg) as [v e] eqn:V. cbv zeta in A.
    destruct (er || e) eqn:Q; [discriminate|]. destruct (SFltb (f32_mul v (rate_factor arg)) kMinimumSampleRate || SFltb kMaximumSampleRate (f32_mul v (rate_factor arg))) eqn:Q2; [discriminate|].
    injection A as <- _ _. apply orb_false_iff in Q2; destruct Q2 as [Q2 Q3]. apply orb_false_iff in Q; destruct Q as [Q0 Q1]. split.
    - split; [exact (proj1 S)|]. intros _. split; assumption.
    - split; [intros arg' X; discriminate X|]. intros arg' X. injection X as <-. rewrite V. cbn [fst snd]. auto. }
  split; [|split; intros arg' X; injection X as X1 X2; congruence].
  unfold apply_opt in A. destruct c as [b0 b1 b2 b3 b4 b5 b6 b7].
  destruct b0, b1, b2, b3, b4, b5, b6, b7; cbv iota in A; try (exfalso; congruence);
    repeat match type of A with (if ?b then _ else _) = _ => destruct b end; try discriminate A;
    (eapply Sm; [exact A|reflexivity|reflexivity|reflexivity]).
Qed.
Lemma init_error_stays : forall ne o fec er op o' fec' er', apply_opt ne (o, fec, er) op = Ok (o', fec', er') -> o_init_error o = true -> o_init_error o' = true.
Proof.
  intros ne o fec er op o' fec' er' A E.
  destruct op as [|c arg]; [injection A as <- _ _; exact E|].
  assert (Sm : forall x y, Ok (x, fec, y) = Ok (o', fec', er') -> o_init_error x = true -> o_init_error o' = true) by (intros x y X; injection X as <- _ _; auto).
  unfold apply_opt in A. destruct (ne_strtoul ne arg) as [v1 e1]. destruct (ne_strtof ne arg) as [v2 e2]. destruct c as [b0 b1 b2 b3 b4 b5 b6 b7].
  destruct b0, b1, b2, b3, b4, b5, b6, b7; cbv iota zeta in A;
    repeat match type of A with (if ?b then _ else _) = _ => destruct b end; try discriminate A;
    (eapply Sm; [exact A|first [exact E|reflexivity]]).
Qed.
Lemma applied : forall ne ops o fec er o' fec' er', sane o -> apply_opts ne (o, fec, er) ops = Ok (o', fec', er') ->
  sane o' /\ (o_init_error o' = false -> Forall (opt_ok ne) ops).
Proof.
  intros ne. induction ops as [|op ops IH]; intros o fec er o' fec' er' S A; cbn [apply_opts] in A.
  - injection A as <- _ _. split; [exact S|constructor].
  - destruct (apply_opt ne (o, fec, er) op) as [[[o1 f1] e1]| |] eqn:E; cbn [bind] in A; try discriminate. cbn [fst] in A. destruct (apply_sane _ _ _ _ _ _ _ _ S E) as [S1 K].
    destruct (o_init_error o1) eqn:Ei.
    + injection A as <- _ _. split; [exact S1|]. congruence.
    + destruct (IH _ _ _ _ _ _ S1 A) as [S2 F]. split; [exact S2|]. intros I. constructor; [exact K|exact (F I)].
Qed.
Lemma options_sane : forall ne ops extra o, getOptions ne ops extra = Ok o ->
  sane o /\ (o_init_error o = false -> Forall (opt_ok ne) ops).
Proof.
  intros ne ops extra o G. unfold getOptions in G. destruct (apply_opts ne (Options_default, true, false) ops) as [[[o1 f1] e1]| |] eqn:E; cbn [bind] in G; try discriminate.
  assert (S0 : sane Options_default) by (split; [cbn; lia|]; intros X; discriminate X).
  destruct (applied _ _ _ _ _ _ _ _ S0 E) as [[S1 S2] F].
  match type of G with (if ?b then _ else _) = _ => destruct b; [discriminate|] end. match type of G with (if ?b then _ else _) = _ => destruct b; [discriminate|] end. match type of G with (if ?b then _ else _) = _ => destruct b; [discriminate|] end.
  cbv zeta in G. injection G as <-. cbn [o_num_channels o_is_rate_defined o_samplerate o_init_error]. split.
  - split; [exact S1|]. cbn [o_is_rate_defined o_samplerate]. intros D. specialize (S2 D). rewrite D. cbn [negb]. rewrite ?andb_false_r. exact S2.
  - intros I. apply orb_false_iff in I. apply F. apply I.
Qed.
(* ---- TEF lines made of digits ---- *)
Lemma hex_char_plain : forall c v, hex_value c = Some v -> isspace c = false /\ c <> 43 /\ c <> 45 /\ (c =? 120) = false /\ (c =? 88) = false.
Proof.
  intros c v H. unfold hex_value in H. unfold isspace.
  destruct ((48 <=? c) && (c <=? 57)) eqn:E1; [repeat split; lia|]. destruct ((65 <=? c) && (c <=? 70)) eqn:E2; [repeat split; lia|]. destruct ((97 <=? c) && (c <=? 102)) eqn:E3; [repeat split; lia|]. discriminate.
Qed.
Fixpoint hex_number (s : bytes) (acc : N) : option N :=
  match s with [] => Some acc | c :: r => match hex_value c with Some v => hex_number r (acc * 16 + v) | None => None end end.
Lemma hex_run_number : forall s acc n v, hex_number s acc = Some v -> hex_run s acc n = (v, n + N.of_nat (length s)).
Proof.
  induction s as [|c s IH]; intros acc n v H; cbn [hex_number hex_run length] in *; [injection H as <-; f_equal; lia|].
  rewrite hexval_spec. destruct (hex_value c); [|discriminate]. rewrite (IH _ _ _ H). f_equal. lia.
Qed.
Lemma hex_number_bound : forall s acc v, hex_number s acc = Some v -> v < (acc + 1) * 16 ^ N.of_nat (length s).
Proof.
  induction s as [|c s IH]; intros acc v H; cbn [hex_number length] in *; [injection H as <-; rewrite N.pow_0_r; lia|].
  destruct (hex_value c) as [x|] eqn:E; [|discriminate]. apply hex_value_lt in E. specialize (IH _ _ H). rewrite Nat2N.inj_succ, N.pow_succ_r'.
  eapply N.lt_le_trans; [exact IH|]. rewrite N.mul_assoc. apply N.mul_le_mono_r. lia.
Qed.
Lemma stol16_number : forall s v, s <> [] -> (length s <= 4)%nat -> hex_number s 0 = Some v -> stol16 s = Some (Z.of_N v) /\ v < 65536.
Proof.
  intros s v NE L H. pose proof (hex_number_bound _ _ _ H) as B.
  assert (B2 : v < 65536). { eapply N.lt_le_trans; [exact B|]. change 65536 with ((0 + 1) * 16 ^ 4). apply N.mul_le_mono_l. apply N.pow_le_mono_r; lia. }
  split; [|exact B2]. destruct s as [|c s]; [congruence|]. pose proof H as H2. cbn [hex_number] in H2. destruct (hex_value c) as [x|] eqn:E; [|discriminate].
  destruct (hex_char_plain _ _ E) as (S1 & S2 & S3 & _). unfold stol16. cbn [skip_space]. rewrite S1. cbv zeta. cbv iota.
  assert (G1 : forall (A : Type) (x y z : A), match c with 43 => x | 45 => y | _ => z end = z).
  { intros A x0 y0 z0. destruct c as [|p]; [reflexivity|]. repeat (destruct p as [p|p|]; try reflexivity); exfalso; congruence. }
  rewrite G1. cbv iota beta.
  match goal with |- context [hex_run ?t 0 0] => assert (G2 : t = c :: s) end.
  { destruct s as [|y s]; [destruct c as [|p]; [reflexivity|]; repeat (destruct p as [p|p|]; try reflexivity)|].
    cbn [hex_number] in H2. destruct (hex_value y) as [xy|] eqn:Ey; [|discriminate]. destruct (hex_char_plain _ _ Ey) as (_ & _ & _ & Y1 & Y2).
    destruct s as [|z s]; [destruct c as [|p]; [reflexivity|]; repeat (destruct p as [p|p|]; try reflexivity)|]. rewrite Y1, Y2. cbn [orb andb].
    destruct c as [|p]; [reflexivity|]; repeat (destruct p as [p|p|]; try reflexivity). }
  rewrite G2. rewrite (hex_run_number _ _ 0 _ H). replace (0 + N.of_nat (length (c :: s)) =? 0) with false by (cbn [length]; lia). cbv zeta.
  replace ((-9223372036854775808 <=? Z.of_N v)%Z && (Z.of_N v <=? 9223372036854775807)%Z) with true by lia. reflexivity.
Qed.
Lemma hex_block_number : forall a b c d v, hex_block a b c d = Some v -> hex_number [a; b; c; d] 0 = Some v.
Proof.
  intros a b c d v H. unfold hex_block in H. cbn [hex_number]. destruct (hex_value a), (hex_value b), (hex_value c), (hex_value d); try discriminate. injection H as <-. f_equal. lia.
Qed.
Lemma tef_line : forall c1 c2 c3 c4 c5 c6 c7 c8 c9 c10 c11 c12 c13 c14 tail rest b2 b3 b4 h l,
  hex_block c1 c2 c3 c4 = Some b2 -> hex_block c5 c6 c7 c8 = Some b3 -> hex_block c9 c10 c11 c12 = Some b4 -> hex_value c13 = Some h -> hex_value c14 = Some l ->
  exists g, readTEFGroup ((82 :: c1 :: c2 :: c3 :: c4 :: c5 :: c6 :: c7 :: c8 :: c9 :: c10 :: c11 :: c12 :: c13 :: c14 :: tail) :: rest) = (g, rest) /\
    received g BLOCK2 = (if (16 * h + l) / 16 =? 0 then Some b2 else None) /\
    received g BLOCK3 = (if (16 * h + l) / 4 =? 0 then Some b3 else None) /\
    received g BLOCK4 = (if 16 * h + l =? 0 then Some b4 else None).
Proof.
  intros c1 c2 c3 c4 c5 c6 c7 c8 c9 c10 c11 c12 c13 c14 tail rest b2 b3 b4 h l B2 B3 B4 H L.
  apply hex_block_number in B2, B3, B4. destruct (stol16_number [c1; c2; c3; c4] b2 ltac:(discriminate) ltac:(cbn; lia) B2) as [S2 U2]. destruct (stol16_number [c5; c6; c7; c8] b3 ltac:(discriminate) ltac:(cbn; lia) B3) as [S3 U3]. destruct (stol16_number [c9; c10; c11; c12] b4 ltac:(discriminate) ltac:(cbn; lia) B4) as [S4 U4].
  pose proof (hex_value_lt _ _ H) as Hh. pose proof (hex_value_lt _ _ L) as Hl.
  assert (E : hex_number [c13; c14] 0 = Some (16 * h + l)) by (cbn [hex_number]; rewrite H, L; f_equal; lia).
  destruct (stol16_number [c13; c14] (16 * h + l) ltac:(discriminate) ltac:(cbn; lia) E) as [S5 _].
  unfold readTEFGroup. cbn [readTEF_loop]. replace (15 <=? N.of_nat (length (82 :: c1 :: c2 :: c3 :: c4 :: c5 :: c6 :: c7 :: c8 :: c9 :: c10 :: c11 :: c12 :: c13 :: c14 :: tail))) with true by (cbn [length]; lia).
  set (line := 82 :: c1 :: _). assert (P : exists g', parse_R line (g_disableOffsets Group_default) = Some g').
  { unfold parse_R. change (firstn 4 (skipn 1 line)) with [c1; c2; c3; c4]. change (firstn 4 (skipn 5 line)) with [c5; c6; c7; c8]. change (firstn 4 (skipn 9 line)) with [c9; c10; c11; c12]. change (firstn 2 (skipn 13 line)) with [c13; c14].
    rewrite S2, S3, S4, S5. eexists. reflexivity. }
  destruct P as [g' P]. rewrite P. exists g'. split; [reflexivity|]. destruct (tef_flags _ _ _ P) as (x2 & x3 & x4 & e & X2 & X3 & X4 & Xe & R2 & R3 & R4 & _).
  change (firstn 4 (skipn 1 line)) with [c1; c2; c3; c4] in X2. change (firstn 4 (skipn 5 line)) with [c5; c6; c7; c8] in X3. change (firstn 4 (skipn 9 line)) with [c9; c10; c11; c12] in X4. change (firstn 2 (skipn 13 line)) with [c13; c14] in Xe.
  rewrite S2 in X2. rewrite S3 in X3. rewrite S4 in X4. rewrite S5 in Xe. injection X2 as <-. injection X3 as <-. injection X4 as <-. assert (Ee : e = Z.of_N (16 * h + l)) by congruence. rewrite Ee in R2, R3, R4. clear Xe Ee.
  assert (Z16 : forall v, v < 65536 -> z_u16 (Z.of_N v) = v) by (intros v Hv; unfold z_u16; rewrite Z.mod_small by lia; apply N2Z.id).
  rewrite Z16 in R2, R3, R4 by assumption. assert (Ze : z_u32 (Z.of_N (16 * h + l)) = 16 * h + l) by (unfold z_u32; rewrite Z.mod_small by lia; apply N2Z.id). rewrite Ze in R2, R3, R4.
  rewrite N.mod_small in R2, R3, R4 by (try (apply N.div_lt_upper_bound; lia); lia). auto.
Qed.
