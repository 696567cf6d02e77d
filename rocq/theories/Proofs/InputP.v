(* The input readers and small utilities. *)
From Verif.Model Require Import Util Group Options Input Csv Dsp Float.
From Verif.Spec Require Import Numerals Inputs.
From Verif.Proofs Require Import Tac Numerals.

Local Open Scope N_scope.
Local Open Scope list_scope.

(* ---- ASCII bits ---- *)
Lemma readBit_none : forall s, filter (fun c => (c =? 48) || (c =? 49)) s = [] -> exists e, readBit s = (false, [], true, e).
Proof.
  induction s as [|c r IH]; intros H; [eexists; reflexivity|]. cbn [filter readBit] in *. destruct (c =? 48) eqn:E0; [discriminate|]. destruct (c =? 49) eqn:E1; [discriminate|].
  destruct (IH H) as [e ->]. eexists. reflexivity.
Qed.
Lemma readBit_some : forall s x l, bit_characters s = x :: l -> exists r e, readBit s = (x, r, false, e) /\ bit_characters r = l /\ (length r < length s)%nat.
Proof.
  induction s as [|c r IH]; intros x l H; [discriminate|]. unfold bit_characters in *. cbn [filter readBit length] in *.
  destruct (c =? 48) eqn:E0; [|destruct (c =? 49) eqn:E1].
  - cbn [orb map] in H. injection H as <- <-. apply N.eqb_eq in E0. subst. eexists. eexists. split; [reflexivity|]. split; [reflexivity|lia].
  - cbn [orb map] in H. injection H as <- <-. apply N.eqb_eq in E1. subst. eexists. eexists. split; [reflexivity|]. split; [reflexivity|lia].
  - cbn [orb] in H. destruct (IH x l H) as (r' & e & -> & B & L). eexists. eexists. split; [reflexivity|]. split; [exact B|lia].
Qed.
Lemma ascii_bits_spec : forall s, ascii_bits s = bit_characters s ++ [false].
Proof.
  assert (G : forall n s, (length s < n)%nat -> readBits n s = bit_characters s ++ [false]).
  { induction n as [|n IH]; intros s L; [lia|]. cbn [readBits]. destruct (bit_characters s) as [|x l] eqn:B.
    - destruct (readBit_none s) as [e ->]; [|reflexivity]. unfold bit_characters in B. apply map_eq_nil in B. exact B.
    - destruct (readBit_some s x l B) as (r & e & -> & Br & Lr). cbn [app]. f_equal. rewrite IH by lia. rewrite Br. reflexivity. }
  intros s. apply G. lia.
Qed.

(* ---- hexadecimal lines ---- *)
Lemma hexval_spec : forall c, hexval c = hex_value c.
Proof.
  intros c. unfold hexval, hex_value. destruct ((48 <=? c) && (c <=? 57)); [reflexivity|]. destruct ((65 <=? c) && (c <=? 70)) eqn:E; [f_equal; lia|].
  destruct ((97 <=? c) && (c <=? 102)) eqn:E2; [f_equal; lia|reflexivity].
Qed.
Lemma hex_value_lt : forall c v, hex_value c = Some v -> v < 16.
Proof.
  intros c v H. unfold hex_value in H. destruct ((48 <=? c) && (c <=? 57)) eqn:E; [injection H as <-; lia|]. destruct ((65 <=? c) && (c <=? 70)) eqn:E1; [injection H as <-; lia|].
  destruct ((97 <=? c) && (c <=? 102)) eqn:E2; [injection H as <-; lia|discriminate].
Qed.
(* one nibble *)
Lemma nibble : forall line k data valid c r, nonblank line = c :: r ->
  exists rest, nonblank rest = r /\
    read_nibbles line (S k) data valid =
    match hex_value c with Some v => read_nibbles rest k (u16 (N.shiftl data 4 + v)) valid | None => read_nibbles rest k data false end.
Proof.
  induction line as [|x line IH]; intros k data valid c r H; [discriminate|]. unfold nonblank in *. cbn [filter] in H. cbn [read_nibbles].
  destruct (x =? 32); cbn [negb] in H; [apply IH; exact H|]. injection H as <- <-. exists line. split; [reflexivity|]. rewrite hexval_spec. reflexivity.
Qed.
Lemma read_block : forall line a b c d r, nonblank line = a :: b :: c :: d :: r ->
  exists rest data, nonblank rest = r /\
    read_nibbles line 4 0 true = match hex_block a b c d with Some v => (v, true, rest) | None => (data, false, rest) end.
Proof.
  intros line a b c d r H. destruct (nibble line 3 0 true a _ H) as (l1 & H1 & E1).
  assert (U : forall x v, x < 4096 -> v < 16 -> u16 (N.shiftl x 4 + v) = x * 16 + v).
  { intros x v Hx Hv. rewrite N.shiftl_mul_pow2. change (2 ^ 4) with 16. unfold u16. apply N.mod_small. lia. }
  assert (St : forall l k data c' r', nonblank l = c' :: r' -> exists rest data', nonblank rest = r' /\ read_nibbles l (S k) data false = read_nibbles rest k data' false).
  { intros l k data c' r' Hl. destruct (nibble l k data false c' r' Hl) as (rest & Hr & E). exists rest. destruct (hex_value c'); eexists; (split; [exact Hr|exact E]). }
  rewrite E1. unfold hex_block. destruct (hex_value a) as [va|] eqn:Ea.
  2: { destruct (St l1 2%nat 0 _ _ H1) as (l2 & d2 & H2 & ->). destruct (St l2 1%nat d2 _ _ H2) as (l3 & d3 & H3 & ->). destruct (St l3 0%nat d3 _ _ H3) as (l4 & d4 & H4 & ->).
       exists l4, d4. split; [exact H4|destruct l4; reflexivity]. }
  pose proof (hex_value_lt _ _ Ea) as La. rewrite U by lia. destruct (nibble l1 2 (0 * 16 + va) true b _ H1) as (l2 & H2 & E2). rewrite E2. destruct (hex_value b) as [vb|] eqn:Eb.
  2: { destruct (St l2 1%nat (0 * 16 + va) _ _ H2) as (l3 & d3 & H3 & ->). destruct (St l3 0%nat d3 _ _ H3) as (l4 & d4 & H4 & ->). exists l4, d4. split; [exact H4|destruct l4; reflexivity]. }
  pose proof (hex_value_lt _ _ Eb) as Lb. rewrite U by lia. destruct (nibble l2 1 ((0 * 16 + va) * 16 + vb) true c _ H2) as (l3 & H3 & E3). rewrite E3. destruct (hex_value c) as [vc|] eqn:Ec.
  2: { destruct (St l3 0%nat ((0 * 16 + va) * 16 + vb) _ _ H3) as (l4 & d4 & H4 & ->). exists l4, d4. split; [exact H4|destruct l4; reflexivity]. }
  pose proof (hex_value_lt _ _ Ec) as Lc. rewrite U by lia. destruct (nibble l3 0 (((0 * 16 + va) * 16 + vb) * 16 + vc) true d _ H3) as (l4 & H4 & E4). rewrite E4. destruct (hex_value d) as [vd|] eqn:Ed.
  - pose proof (hex_value_lt _ _ Ed) as Ld. rewrite U by lia. exists l4, 0. split; [exact H4|]. replace (((va * 4096 + vb * 256 + vc * 16 + vd))) with ((((0 * 16 + va) * 16 + vb) * 16 + vc) * 16 + vd) by lia. destruct l4; reflexivity.
  - exists l4, (((0 * 16 + va) * 16 + vb) * 16 + vc). split; [exact H4|destruct l4; reflexivity].
Qed.

Lemma setBlock_block : forall g n b m, g_block (g_setBlock g n b) m = if blockNumber_eqb n m then b else g_block g m.
Proof.
  intros g n b m. unfold g_setBlock. set (g0 := g_put_block g n b).
  assert (P : g_block g0 m = if blockNumber_eqb n m then b else g_block g m) by (unfold g0; destruct n, m; reflexivity).
  assert (T : forall x t h, g_block (g_put_type x t h) m = g_block x m) by (intros; destruct m; reflexivity).
  assert (forall x, g_block x m = g_block g0 m -> g_block x m = if blockNumber_eqb n m then b else g_block g m) as K by (intros; congruence).
  apply K. destruct (g_has_type g0); [reflexivity|]. cbv zeta.
  assert (M : forall x, g_block x m = g_block g0 m -> g_block (if Offset_eqb (blk_offset b) OffCprime && g_has x BLOCK2
    then g_put_type x (g_type x) (Version_eqb (gt_version (g_type x)) VB) else x) m = g_block g0 m)
    by (intros x Hx; destruct (_ && _); rewrite ?T; exact Hx).
  apply M. destruct n; try reflexivity.
  - destruct (gt_version _); rewrite T; reflexivity.
  - destruct (g_has_c_prime g0 && _); [|reflexivity]. destruct (_ && _); rewrite ?T; reflexivity.
Qed.
Lemma setBlock_stream : forall g n b, g_data_stream (g_setBlock g n b) = g_data_stream g.
Proof.
  intros g n b. unfold g_setBlock. set (g0 := g_put_block g n b). assert (P : g_data_stream g0 = g_data_stream g) by (unfold g0; destruct n; reflexivity).
  destruct (g_has_type g0); [exact P|]. cbv zeta.
  assert (M : forall x, g_data_stream x = g_data_stream g -> g_data_stream (if Offset_eqb (blk_offset b) OffCprime && g_has x BLOCK2
    then g_put_type x (g_type x) (Version_eqb (gt_version (g_type x)) VB) else x) = g_data_stream g)
    by (intros x Hx; destruct (_ && _); exact Hx).
  apply M. destruct n; try exact P.
  - destruct (gt_version _); exact P.
  - destruct (g_has_c_prime g0 && _); [|exact P]. destruct (_ && _); exact P.
Qed.
Definition start_group : Group := g_disableOffsets Group_default.
Lemma read_hex_step : forall n g line a b c d r, nonblank line = a :: b :: c :: d :: r ->
  exists rest, nonblank rest = r /\ exists g', read_hex_block n (g, line) = (g', rest) /\ g_data_stream g' = g_data_stream g /\
    (blk_is_received (g_block g n) = false -> received g' n = hex_block a b c d) /\
    (forall m, m <> n -> g_block g' m = g_block g m).
Proof.
  intros n g line a b c d r H. destruct (read_block line a b c d r H) as (rest & data & Hr & E). exists rest. split; [exact Hr|].
  unfold read_hex_block. rewrite E. destruct (hex_block a b c d) as [v|].
  - eexists. split; [reflexivity|]. split; [apply setBlock_stream|]. split.
    + intros _. unfold received. rewrite setBlock_block. replace (blockNumber_eqb n n) with true by (destruct n; reflexivity). reflexivity.
    + intros m Hm. rewrite setBlock_block. destruct n, m; try reflexivity; congruence.
  - eexists. split; [reflexivity|]. split; [reflexivity|]. split; [|reflexivity]. intros N0. unfold received. rewrite N0. reflexivity.
Qed.
Lemma four_blocks : forall line c1 c2 c3 c4 c5 c6 c7 c8 c9 c10 c11 c12 c13 c14 c15 c16 r g,
  nonblank line = c1 :: c2 :: c3 :: c4 :: c5 :: c6 :: c7 :: c8 :: c9 :: c10 :: c11 :: c12 :: c13 :: c14 :: c15 :: c16 :: r ->
  (forall n, blk_is_received (g_block g n) = false) ->
  let g' := fst (read_hex_block BLOCK4 (read_hex_block BLOCK3 (read_hex_block BLOCK2 (read_hex_block BLOCK1 (g, line))))) in
  g_data_stream g' = g_data_stream g /\ received g' BLOCK1 = hex_block c1 c2 c3 c4 /\ received g' BLOCK2 = hex_block c5 c6 c7 c8 /\
  received g' BLOCK3 = hex_block c9 c10 c11 c12 /\ received g' BLOCK4 = hex_block c13 c14 c15 c16.
Proof.
  intros line c1 c2 c3 c4 c5 c6 c7 c8 c9 c10 c11 c12 c13 c14 c15 c16 r g H F. cbv zeta.
  destruct (read_hex_step BLOCK1 g line _ _ _ _ _ H) as (l1 & H1 & g1 & -> & S1 & R1 & M1).
  destruct (read_hex_step BLOCK2 g1 l1 _ _ _ _ _ H1) as (l2 & H2 & g2 & -> & S2 & R2 & M2).
  destruct (read_hex_step BLOCK3 g2 l2 _ _ _ _ _ H2) as (l3 & H3 & g3 & -> & S3 & R3 & M3).
  destruct (read_hex_step BLOCK4 g3 l3 _ _ _ _ _ H3) as (l4 & H4 & g4 & -> & S4 & R4 & M4). cbn [fst].
  split; [congruence|]. unfold received in *.
  rewrite (M4 BLOCK1), (M3 BLOCK1), (M2 BLOCK1), (M4 BLOCK2), (M3 BLOCK2), (M4 BLOCK3) by discriminate.
  split; [apply R1; apply F|]. split; [apply R2; rewrite (M1 BLOCK2) by discriminate; apply F|].
  split; [apply R3; rewrite (M2 BLOCK3), (M1 BLOCK3) by discriminate; apply F|].
  apply R4. rewrite (M3 BLOCK4), (M2 BLOCK4), (M1 BLOCK4) by discriminate. apply F.
Qed.
Lemma nonblank_length : forall s, (length (nonblank s) <= length s)%nat.
Proof. induction s as [|c s IH]; [cbn; lia|]. unfold nonblank in *. cbn [filter length]. destruct (negb _); cbn [length]; lia. Qed.
(* A line of at least sixteen non-blank characters *)
Lemma hex_line : forall o now strm text rest c1 c2 c3 c4 c5 c6 c7 c8 c9 c10 c11 c12 c13 c14 c15 c16 r, strm <= 3 -> (strm = 0 -> hd 0 text <> 35) ->
  nonblank text = c1 :: c2 :: c3 :: c4 :: c5 :: c6 :: c7 :: c8 :: c9 :: c10 :: c11 :: c12 :: c13 :: c14 :: c15 :: c16 :: r ->
  exists g, readHexGroup o now (marked strm text :: rest) = (g, rest) /\ g_data_stream g = strm /\
    received g BLOCK1 = hex_block c1 c2 c3 c4 /\ received g BLOCK2 = hex_block c5 c6 c7 c8 /\
    received g BLOCK3 = hex_block c9 c10 c11 c12 /\ received g BLOCK4 = hex_block c13 c14 c15 c16.
Proof.
  intros o now strm text rest c1 c2 c3 c4 c5 c6 c7 c8 c9 c10 c11 c12 c13 c14 c15 c16 r Hs Hd H.
  pose proof (nonblank_length text) as L. rewrite H in L. cbn [length] in L.
  assert (Hx : hex_stream (marked strm text) = (strm, text)).
  { unfold marked. destruct (N.eqb_spec strm 0) as [->|Ns].
    - specialize (Hd eq_refl). destruct text as [|x text]; [reflexivity|]. cbn [hd] in Hd. unfold hex_stream. destruct x as [|p]; [reflexivity|].
      do 6 (destruct p as [p|p|]; try reflexivity; try (exfalso; apply Hd; reflexivity)).
    - cbn [app]. unfold hex_stream. replace (20 <=? _) with true by (cbn [length]; symmetry; apply N.leb_le; lia).
      replace ((48 + strm =? 49) || (48 + strm =? 50) || (48 + strm =? 51)) with true by lia. cbn [andb]. f_equal. lia. }
  assert (Ln : N.of_nat (length (marked strm text)) <? 16 = false).
  { apply N.ltb_ge. unfold marked. destruct (strm =? 0); [lia|]. rewrite app_length. lia. }
  unfold readHexGroup. cbn [readHexGroup_loop]. rewrite Ln. unfold parse_hex_line. rewrite Hx.
  pose proof (four_blocks text c1 c2 c3 c4 c5 c6 c7 c8 c9 c10 c11 c12 c13 c14 c15 c16 r (g_setDataStream start_group strm) H ltac:(intros []; reflexivity)) as X.
  cbv zeta in X. fold start_group. set (g := fst _) in *. destruct X as (X0 & X1 & X2 & X3 & X4).
  destruct (o_timestamp o); eexists; (split; [reflexivity|]); exact (conj X0 (conj X1 (conj X2 (conj X3 X4)))).
Qed.

(* A printed group *)
Lemma digit_hex : forall c v, digit_of c = Some v -> hex_value c = Some v /\ c <> 32.
Proof.
  intros c v H. unfold digit_of, hex_value in *. destruct ((48 <=? c) && (c <=? 57)) eqn:E; [split; [exact H|lia]|].
  destruct ((65 <=? c) && (c <=? 70)) eqn:E1; [|discriminate]. split; [injection H as <-; f_equal; lia|lia].
Qed.
Definition block_of (g : Group) (n : blockNumber) : Prop := blk_is_received (g_block g n) = true -> blk_data (g_block g n) < 2 ^ 16.
Lemma block_text : forall g n, block_of g n -> exists a b c d,
  blk_hex (g_block g n) = [a; b; c; d] /\ nonblank [a; b; c; d] = [a; b; c; d] /\ hex_block a b c d = received g n /\ a <> 35.
Proof.
  intros g n B. unfold blk_hex, received. destruct (blk_is_received (g_block g n)) eqn:R.
  - specialize (B R). change (2 ^ 16) with (16 ^ N.of_nat 4) in B. destruct (getHexString_ok 4 _ B ltac:(lia)) as [L V].
    destruct (getHexString 4 (blk_data (g_block g n))) as [|a [|b [|c [|d [|]]]]]; try discriminate L. exists a, b, c, d. split; [reflexivity|].
    unfold numeral in V. cbn [numeral_from] in V.
    destruct (digit_of a) as [va|] eqn:Ea; [|discriminate]. destruct (va <? 16) eqn:La; [|discriminate].
    destruct (digit_of b) as [vb|] eqn:Eb; [|discriminate]. destruct (vb <? 16) eqn:Lb; [|discriminate].
    destruct (digit_of c) as [vc|] eqn:Ec; [|discriminate]. destruct (vc <? 16) eqn:Lc; [|discriminate].
    destruct (digit_of d) as [vd|] eqn:Ed; [|discriminate]. destruct (vd <? 16) eqn:Ld; [|discriminate].
    injection V as V. destruct (digit_hex _ _ Ea) as [Ha Na]. destruct (digit_hex _ _ Eb) as [Hb Nb]. destruct (digit_hex _ _ Ec) as [Hc Nc]. destruct (digit_hex _ _ Ed) as [Hd Nd].
    split; [|split].
    + unfold nonblank. cbn [filter]. apply N.eqb_neq in Na, Nb, Nc, Nd. rewrite Na, Nb, Nc, Nd. reflexivity.
    + unfold hex_block. rewrite Ha, Hb, Hc, Hd. f_equal. rewrite <- V. lia.
    + intros ->. discriminate Ea.
  - exists 45, 45, 45, 45. repeat split. discriminate.
Qed.
(* A printed group read back *)
Lemma nonblank_app : forall a b, nonblank (a ++ b) = nonblank a ++ nonblank b.
Proof. intros a b. unfold nonblank. apply filter_app. Qed.
Lemma hex_round_trip : forall o now g tail rest, g_data_stream g <= 3 -> (forall n, block_of g n) -> (tail = [] \/ exists t, tail = 32 :: t) ->
  exists g', readHexGroup o now (((if 0 <? g_data_stream g then bs "#S" ++ dec_string (g_data_stream g) ++ bs " " else []) ++ g_printHex g ++ tail) :: rest) = (g', rest) /\
    g_data_stream g' = g_data_stream g /\ forall n, received g' n = received g n.
Proof.
  intros o now g tail rest Hs B Ht.
  destruct (block_text g BLOCK1 (B BLOCK1)) as (a1 & a2 & a3 & a4 & T1 & N1 & V1 & D1). destruct (block_text g BLOCK2 (B BLOCK2)) as (b1 & b2 & b3 & b4 & T2 & N2 & V2 & _).
  destruct (block_text g BLOCK3 (B BLOCK3)) as (c1 & c2 & c3 & c4 & T3 & N3 & V3 & _). destruct (block_text g BLOCK4 (B BLOCK4)) as (d1 & d2 & d3 & d4 & T4 & N4 & V4 & _).
  replace ((if 0 <? g_data_stream g then bs "#S" ++ dec_string (g_data_stream g) ++ bs " " else []) ++ g_printHex g ++ tail) with (marked (g_data_stream g) (g_printHex g ++ tail)).
  2: { unfold marked. assert (H4 : g_data_stream g = 0 \/ g_data_stream g = 1 \/ g_data_stream g = 2 \/ g_data_stream g = 3) by lia.
       destruct H4 as [->|[->|[->| ->]]]; reflexivity. }
  assert (P : g_printHex g ++ tail = [a1; a2; a3; a4] ++ [32] ++ [b1; b2; b3; b4] ++ [32] ++ [c1; c2; c3; c4] ++ [32] ++ [d1; d2; d3; d4] ++ tail).
  { unfold g_printHex. cbn [g_block] in T1, T2, T3, T4. rewrite T1, T2, T3, T4. rewrite <- !app_assoc. reflexivity. }
  assert (Nb : nonblank (g_printHex g ++ tail) = [a1; a2; a3; a4] ++ [b1; b2; b3; b4] ++ [c1; c2; c3; c4] ++ [d1; d2; d3; d4] ++ nonblank tail).
  { rewrite P, !nonblank_app, N1, N2, N3, N4. reflexivity. }
  destruct (hex_line o now (g_data_stream g) (g_printHex g ++ tail) rest _ _ _ _ _ _ _ _ _ _ _ _ _ _ _ _ _ Hs ltac:(intros _; rewrite P; exact D1) Nb) as (g' & E & S' & R1 & R2 & R3 & R4).
  exists g'. split; [exact E|]. split; [exact S'|]. intros []; congruence.
Qed.
(* a line end after each *)
Lemma split_line : forall line rest, ~ In 10 line -> split_lines (line ++ 10 :: rest) = line :: split_lines rest.
Proof.
  induction line as [|c line IH]; intros rest H; cbn [app split_lines]; [reflexivity|]. destruct (N.eqb_spec c 10) as [->|Nc]; [exfalso; apply H; left; reflexivity|].
  rewrite IH by (intros X; apply H; right; exact X). reflexivity.
Qed.
Lemma getHexString_char : forall w v, Forall (fun c => c <> 10 /\ c <> 32) (getHexString w v).
Proof. intros w v. eapply Forall_impl; [|apply getHexString_chars]. intros c [H|H]; lia. Qed.
Lemma read_lines : forall (A : Type) (P : A -> Prop) (R : A -> Group -> Prop) (line : A -> bytes) o, (forall x, P x -> ~ In 10 (line x)) ->
  (forall x now rest, P x -> exists g, readHexGroup o now (line x :: rest) = (g, rest) /\ R x g) ->
  forall xs clock, Forall P xs -> exists gs last, read_hex_input o clock (concat (map (fun x => line x ++ [10]) xs)) = gs ++ [last] /\ Forall2 R xs gs /\
    g_data_stream last = 0 /\ forall n, received last n = None.
Proof.
  intros A P R line o N0 Rd xs clock F0. unfold read_hex_input.
  assert (L : split_lines (concat (map (fun x => line x ++ [10]) xs)) = map line xs ++ [[]]).
  { induction F0 as [|x xs Hx F0 IH]; [reflexivity|]. cbn [map concat app]. rewrite <- app_assoc. cbn [app]. rewrite split_line by (apply N0; exact Hx). rewrite IH. reflexivity. }
  rewrite L. rewrite app_length. cbn [length]. rewrite map_length, Nat.add_1_r.
  clear L. revert clock. induction F0 as [|x xs Hx F0 IH]; intros clock.
  - exists []. eexists. split; [reflexivity|]. split; [constructor|]. unfold readHexGroup. cbn [readHexGroup_loop]. destruct (o_timestamp o); (split; [reflexivity|intros []; reflexivity]).
  - cbn [map app length]. change (hex_groups (S (S (length xs))) o clock (line x :: (map line xs ++ [[]])))
      with (let '(g, rest) := readHexGroup o (clock O) (line x :: (map line xs ++ [[]])) in g :: hex_groups (S (length xs)) o (fun n => clock (S n)) rest).
    destruct (Rd x (clock O) (map line xs ++ [[]]) Hx) as (g & -> & Rg). destruct (IH (fun n => clock (S n))) as (gs & last & E & F & Hl).
    exists (g :: gs), last. rewrite E. split; [reflexivity|]. split; [constructor; assumption|exact Hl].
Qed.

(* ---- CSV ---- *)
Definition plain_field (d : N) (f : bytes) : Prop := Forall (fun c => c <> d /\ c <> 10 /\ c <> 13) f.
Lemma find_from_field : forall d f rest pos, plain_field d f -> find_from d (f ++ d :: rest) pos = Some (pos + N.of_nat (length f)).
Proof.
  induction f as [|c f IH]; intros rest pos P; cbn [app find_from length].
  - rewrite N.eqb_refl. f_equal. lia.
  - inversion P as [|? ? [Hc _] P']; subst. apply N.eqb_neq in Hc. rewrite Hc, IH by assumption. f_equal. lia.
Qed.
Lemma find_from_none : forall d s pos, ~ In d s -> find_from d s pos = None.
Proof.
  induction s as [|c s IH]; intros pos H; [reflexivity|]. cbn [find_from]. destruct (N.eqb_spec c d) as [->|]; [exfalso; apply H; left; reflexivity|].
  apply IH. intros X. apply H. right. exact X.
Qed.
Lemma until_app : forall f s, Forall (fun c => c <> 10 /\ c <> 13) f -> until_line_feed (f ++ s) = N.of_nat (length f) + until_line_feed s.
Proof.
  induction f as [|c f IH]; intros s F; [reflexivity|]. inversion F as [|? ? [A B] F']; subst. cbn [app until_line_feed length].
  apply N.eqb_neq in A, B. rewrite A, B. cbn [orb]. rewrite IH by assumption. lia.
Qed.
Lemma separated_plain : forall d fs, d <> 10 -> d <> 13 -> Forall (plain_field d) fs -> Forall (fun c => c <> 10 /\ c <> 13) (separated d fs).
Proof.
  intros d fs D1 D2 F. induction F as [|f fs P F IH]; [constructor|]. destruct fs as [|f' fs]; cbn [separated].
  - eapply Forall_impl; [|exact P]. intros c (_ & H). exact H.
  - apply Forall_app. split; [eapply Forall_impl; [|exact P]; intros c (_ & H); exact H|]. constructor; [split; assumption|]. exact IH.
Qed.
Definition cut (line : bytes) (ol : N * N) : bytes := firstn (N.to_nat (snd ol)) (skipn (N.to_nat (fst ol)) line).
Lemma cut_field : forall pre f rest, cut (pre ++ f ++ rest) (N.of_nat (length pre), N.of_nat (length f)) = f.
Proof.
  intros pre f rest. unfold cut. cbn [fst snd]. rewrite !Nat2N.id, skipn_app, skipn_all, Nat.sub_diag. cbn [skipn app].
  rewrite firstn_app, firstn_all, Nat.sub_diag. cbn [firstn]. apply app_nil_r.
Qed.
Lemma csv_fields : forall d tail, ~ In d tail -> forall fs pre fuel e line, Forall (plain_field d) fs -> fs <> [] -> (length fs <= fuel)%nat ->
  line = pre ++ separated d fs ++ tail -> e < N.of_nat (length pre) + N.of_nat (length (separated d fs)) ->
  map (cut line) (csv_loop fuel line d (N.of_nat (length pre) + N.of_nat (length (separated d fs))) (N.of_nat (length pre)) e) = fs.
Proof.
  intros d tail Nt. induction fs as [|f fs IH]; intros pre fuel e line F Ne Lf El He; [congruence|].
  destruct fuel as [|fuel]; [cbn [length] in Lf; lia|]. cbn [csv_loop]. apply N.ltb_lt in He. rewrite He. inversion F as [|? ? P F']; subst.
  rewrite Nat2N.id, skipn_app, skipn_all, Nat.sub_diag. cbn [skipn app].
  destruct fs as [|f' fs].
  - cbn [separated] in *. rewrite find_from_none.
    + cbn [map]. replace (N.of_nat (length pre) + N.of_nat (length f) - N.of_nat (length pre)) with (N.of_nat (length f)) by lia. rewrite cut_field.
      destruct fuel as [|fuel]; [reflexivity|]. cbn [csv_loop]. rewrite N.ltb_irrefl. reflexivity.
    + intros X. apply in_app_or in X. destruct X as [X|X]; [|exact (Nt X)]. unfold plain_field in P. rewrite Forall_forall in P. destruct (P d X). congruence.
  - change (separated d (f :: f' :: fs)) with (f ++ d :: separated d (f' :: fs)) in *. rewrite <- app_assoc. cbn [app].
    rewrite find_from_field by exact P. cbn [map].
    replace (N.of_nat (length pre) + N.of_nat (length f) - N.of_nat (length pre)) with (N.of_nat (length f)) by lia. rewrite cut_field. f_equal.
    specialize (IH (pre ++ f ++ [d]) fuel (N.of_nat (length pre) + N.of_nat (length f)) (pre ++ f ++ d :: separated d (f' :: fs) ++ tail) F' ltac:(discriminate) ltac:(cbn [length] in Lf |- *; lia)
      ltac:(rewrite <- !app_assoc; reflexivity)).
    rewrite !app_length in IH. cbn [length] in IH. rewrite !app_length. cbn [length].
    replace (N.of_nat (length pre) + N.of_nat (length f + S (length (separated d (f' :: fs))))) with (N.of_nat (length pre + (length f + 1)) + N.of_nat (length (separated d (f' :: fs)))) by lia.
    replace (N.of_nat (length pre) + N.of_nat (length f) + 1) with (N.of_nat (length pre + (length f + 1))) by lia.
    apply IH. lia.
Qed.
Lemma separated_length : forall d fs, fs <> [] -> (length fs <= S (length (separated d fs)))%nat.
Proof.
  intros d fs. induction fs as [|f fs IH]; intros H; [congruence|]. destruct fs as [|f' fs]; [cbn; lia|].
  change (separated d (f :: f' :: fs)) with (f ++ d :: separated d (f' :: fs)). rewrite app_length. specialize (IH ltac:(discriminate)). cbn [length] in *. lia.
Qed.
Lemma csv_split : forall d fields tail, d <> 10 -> d <> 13 -> Forall (plain_field d) fields -> fields <> [] -> fields <> [[]] ->
  (tail = [] \/ exists c t, tail = c :: t /\ (c = 13 \/ c = 10) /\ ~ In d t) ->
  row_all (CSVRow_new (separated d fields ++ tail) d) = fields.
Proof.
  intros d fields tail D1 D2 F N1 N2 Ht. unfold row_all, CSVRow_new. cbn [row_string row_fields].
  assert (Nt : ~ In d tail) by (destruct Ht as [->|(c & t & -> & Hc & Nt)]; [intros []|intros [X|X]; [destruct Hc; congruence|exact (Nt X)]]).
  assert (U : until_line_feed (separated d fields ++ tail) = N.of_nat (length (separated d fields))).
  { rewrite until_app by (apply separated_plain; assumption). destruct Ht as [->|(c & t & -> & [->| ->] & _)]; cbn; lia. }
  rewrite U.
  assert (Ln : (0 < length (separated d fields))%nat).
  { destruct fields as [|f [|f' fs]]; [exfalso; apply N1; reflexivity|destruct f as [|c f]; [exfalso; apply N2; reflexivity|cbn; lia]|]. change (separated d (f :: f' :: fs)) with (f ++ d :: separated d (f' :: fs)). rewrite app_length. cbn [length]. lia. }
  pose proof (csv_fields d tail Nt fields [] (S (length (separated d fields ++ tail))) 0 (separated d fields ++ tail) F N1
    ltac:(pose proof (separated_length d fields N1); rewrite app_length; lia) eq_refl ltac:(cbn [length]; lia)) as X.
  cbn [length] in X. exact X.
Qed.
