(* Algebra of the syndrome and of the burst-error table. *)
From Verif.Model Require Import Base Util Group BlockSync.
From Verif.Spec Require Import RdsCode.
From Verif.Proofs Require Import Tac.

Lemma row_bit : forall row v k,
  row * N.land (N.shiftr v k) 1 = if N.testbit v k then row else 0.
Proof.
  intros row v k.
  replace (N.land (N.shiftr v k) 1) with (if N.testbit v k then 1 else 0).
  - destruct (N.testbit v k); lia.
  - change 1 with (N.ones 1) at 2. rewrite N.land_ones. change (2 ^ 1) with 2.
    rewrite <- N.bit0_mod. rewrite N.shiftr_spec by lia. rewrite N.add_0_l.
    destruct (N.testbit v k); reflexivity.
Qed.

Lemma syndrome_loop_lxor : forall rows k a b ra rb,
  syndrome_loop rows k (N.lxor a b) (N.lxor ra rb) =
  N.lxor (syndrome_loop rows k a ra) (syndrome_loop rows k b rb).
Proof.
  induction rows as [|row rows IH]; intros k a b ra rb; cbn [syndrome_loop]; [reflexivity|].
  rewrite !row_bit, N.lxor_spec. rewrite <- IH. f_equal.
  bits_ext n. rewrite !N.lxor_spec.
  destruct (N.testbit a k), (N.testbit b k); cbn [xorb]; rewrite ?N.bits_0;
    destruct (N.testbit ra n), (N.testbit rb n), (N.testbit row n); reflexivity.
Qed.

Lemma syndrome_lxor : forall a b,
  calculateSyndrome (N.lxor a b) = N.lxor (calculateSyndrome a) (calculateSyndrome b).
Proof. intros a b. unfold calculateSyndrome. apply (syndrome_loop_lxor _ 0 a b 0 0). Qed.

Lemma syndrome_0 : calculateSyndrome 0 = 0.
Proof. vm_compute. reflexivity. Qed.

(* Unfold these only by vm_compute or on request. *)
#[local] Strategy 1000 [calculateSyndrome table_find error_lookup_table nseq].

(* The code part (before the offset word is added). *)
Definition code (data : N) : N := N.shiftl data 10 + checkword data.

Lemma lxor_lt_pow2 : forall a b k, a < 2 ^ k -> b < 2 ^ k -> N.lxor a b < 2 ^ k.
Proof.
  intros a b k Ha Hb.
  destruct (N.eq_dec (N.lxor a b) 0) as [E|E]; [rewrite E; lia|].
  assert (P : N.log2 (N.lxor a b) <= N.max (N.log2 a) (N.log2 b)) by apply N.log2_lxor.
  destruct (N.eq_dec a 0) as [->|Na]; [rewrite N.lxor_0_l in *; exact Hb|].
  destruct (N.eq_dec b 0) as [->|Nb]; [rewrite N.lxor_0_r in *; exact Ha|].
  apply N.log2_lt_pow2; [lia|].
  apply N.log2_lt_pow2 in Ha; [|lia]. apply N.log2_lt_pow2 in Hb; [|lia]. lia.
Qed.

Lemma remainder_lxor : forall k a b,
  remainder_by_g k (N.lxor a b) = N.lxor (remainder_by_g k a) (remainder_by_g k b).
Proof.
  induction k as [|k IH]; intros a b; [reflexivity|]. cbn [remainder_by_g]. rewrite <- IH. f_equal.
  rewrite N.lxor_spec. set (g := N.shiftl gen_poly (N.of_nat k)).
  destruct (N.testbit a (10 + N.of_nat k)), (N.testbit b (10 + N.of_nat k)); cbn [xorb].
  - rewrite N.lxor_assoc, (N.lxor_comm g), N.lxor_assoc, N.lxor_nilpotent, N.lxor_0_r. reflexivity.
  - rewrite !N.lxor_assoc. f_equal. apply N.lxor_comm.
  - rewrite N.lxor_assoc. reflexivity.
  - reflexivity.
Qed.

Lemma checkword_lxor : forall a b, checkword (N.lxor a b) = N.lxor (checkword a) (checkword b).
Proof. intros a b. unfold checkword. rewrite N.shiftl_lxor. apply remainder_lxor. Qed.

Lemma add_low_lxor : forall d c, c < 1024 -> N.shiftl d 10 + c = N.lxor (N.shiftl d 10) c.
Proof.
  intros d c Hc. apply N.add_nocarry_lxor. apply N.bits_inj_0. intros n. rewrite N.land_spec.
  destruct (N.lt_ge_cases n 10) as [L|L].
  - rewrite N.shiftl_spec_low by exact L. reflexivity.
  - replace (N.testbit c n) with false; [apply andb_false_r|]. symmetry.
    rewrite <- (N.mod_small c (2 ^ 10)) by exact Hc. apply N.mod_pow2_bits_high. exact L.
Qed.

Lemma code_basis : forall d, d < 2 ^ 16 ->
  calculateSyndrome (N.lxor (N.shiftl d 10) (checkword d)) = 0 /\ checkword d < 1024.
Proof.
  apply (xor_ind (fun d => calculateSyndrome (N.lxor (N.shiftl d 10) (checkword d)) = 0 /\ checkword d < 1024) 16).
  - split; vm_compute; reflexivity.
  - intros i Hi. do 16 (destruct i as [|i]; [split; vm_compute; reflexivity|]). lia.
  - intros a b [A1 A2] [B1 B2]. rewrite checkword_lxor, N.shiftl_lxor. split.
    + replace (N.lxor (N.lxor (N.shiftl a 10) (N.shiftl b 10)) (N.lxor (checkword a) (checkword b)))
        with (N.lxor (N.lxor (N.shiftl a 10) (checkword a)) (N.lxor (N.shiftl b 10) (checkword b))).
      * rewrite syndrome_lxor, A1, B1. reflexivity.
      * apply N.bits_inj. intros n. rewrite !N.lxor_spec.
        destruct (N.testbit (N.shiftl a 10) n), (N.testbit (N.shiftl b 10) n), (N.testbit (checkword a) n),
          (N.testbit (checkword b) n); reflexivity.
    + change 1024 with (2 ^ 10). apply lxor_lt_pow2; assumption.
Qed.

Lemma checkword_lt : forall d, d < 2 ^ 16 -> checkword d < 1024.
Proof. intros d H. exact (proj2 (code_basis d H)). Qed.

Lemma code_syndrome : forall d, d < 2 ^ 16 -> calculateSyndrome (code d) = 0.
Proof.
  intros d H. unfold code. rewrite add_low_lxor by (apply checkword_lt; exact H).
  exact (proj1 (code_basis d H)).
Qed.

Lemma tx_syndrome : forall o d, d < 2 ^ 16 ->
  calculateSyndrome (tx_block o d) = calculateSyndrome (offset_word o).
Proof.
  intros o d H. unfold tx_block. rewrite syndrome_lxor. fold (code d).
  rewrite code_syndrome by exact H. apply N.lxor_0_l.
Qed.

Lemma tx_recognised : forall o d, real_offset o -> d < 2 ^ 16 ->
  getOffsetForSyndrome (calculateSyndrome (tx_block o d)) = o.
Proof.
  intros o d Ho H. rewrite tx_syndrome by exact H.
  destruct o; vm_compute; reflexivity.
Qed.

Lemma offset_word_lt : forall o, offset_word o < 1024.
Proof. destruct o; cbn; lia. Qed.

Lemma tx_block_lt : forall o d, d < 2 ^ 16 -> tx_block o d < 2 ^ 26.
Proof.
  intros o d H. unfold tx_block. apply lxor_lt_pow2.
  - pose proof (checkword_lt d H). rewrite N.shiftl_mul_pow2.
    change (2 ^ 10) with 1024. change (2 ^ 16) with 65536 in H. change (2 ^ 26) with 67108864. lia.
  - pose proof (offset_word_lt o). change (2 ^ 26) with 67108864. lia.
Qed.

(* The information word is the top 16 bits. *)
Lemma lxor_shiftr_low : forall a b, b < 1024 -> N.shiftr (N.lxor a b) 10 = N.shiftr a 10.
Proof.
  intros a b Hb. rewrite N.shiftr_lxor.
  replace (N.shiftr b 10) with 0; [apply N.lxor_0_r|].
  rewrite N.shiftr_div_pow2. symmetry. apply N.div_small. exact Hb.
Qed.

Lemma tx_data : forall o d, d < 2 ^ 16 -> N.shiftr (tx_block o d) 10 = d.
Proof.
  intros o d H. unfold tx_block. rewrite lxor_shiftr_low by apply offset_word_lt.
  pose proof (checkword_lt d H).
  rewrite N.shiftr_div_pow2, N.shiftl_mul_pow2. change (2 ^ 10) with 1024. lia.
Qed.

(* A 26-bit word with the syndrome of an offset is the transmitted block of its top 16 bits. *)
Lemma low_syndrome_sweep :
  all_below_pow2 10 0 (fun v => (v =? 0) || negb (calculateSyndrome v =? 0)) = true.
Proof. vm_compute. reflexivity. Qed.

Lemma codeword_of_syndrome : forall o v, v < 2 ^ 26 ->
  calculateSyndrome v = calculateSyndrome (offset_word o) ->
  v = tx_block o (N.shiftr v 10).
Proof.
  intros o v Hv HS.
  assert (Hd : N.shiftr v 10 < 2 ^ 16).
  { rewrite N.shiftr_div_pow2. change (2 ^ 26) with (2 ^ 16 * 2 ^ 10) in Hv.
    apply N.div_lt_upper_bound; lia. }
  set (d := N.shiftr v 10) in *.
  set (w := N.lxor v (tx_block o d)).
  assert (Hw : calculateSyndrome w = 0).
  { unfold w. rewrite syndrome_lxor, HS, tx_syndrome by exact Hd. apply N.lxor_nilpotent. }
  assert (Hlow : w < 1024).
  { assert (E : N.shiftr w 10 = 0).
    { unfold w. rewrite N.shiftr_lxor, tx_data by exact Hd. apply N.lxor_nilpotent. }
    rewrite N.shiftr_div_pow2 in E. change (2 ^ 10) with 1024 in E.
    apply N.div_small_iff in E; lia. }
  pose proof (sweep_pow2 _ _ low_syndrome_sweep w Hlow) as S. cbn beta in S.
  rewrite Hw in S. cbn in S. rewrite orb_false_r in S. apply N.eqb_eq in S.
  unfold w in S. apply N.lxor_eq in S. exact S.
Qed.

(* --- burst errors --- *)

Definition short_burst_list : list N :=
  map (fun i => N.shiftl 1 i) (nseq 0 26) ++ map (fun i => N.shiftl 3 i) (nseq 0 25).

#[local] Strategy 1000 [short_burst_list].

Lemma log2_cases_1 : forall p, N.testbit p 0 = true -> N.log2 p = 0 -> p = 1.
Proof.
  intros p H0 HL. destruct (N.eq_dec p 0) as [->|Np]; [discriminate H0|].
  pose proof (N.log2_spec p ltac:(lia)) as [L U]. rewrite HL in *. cbn in *. lia.
Qed.

Lemma log2_cases_2 : forall p, N.testbit p 0 = true -> N.log2 p = 1 -> p = 3.
Proof.
  intros p H0 HL. destruct (N.eq_dec p 0) as [->|Np]; [discriminate H0|].
  pose proof (N.log2_spec p ltac:(lia)) as [L U]. rewrite HL in *.
  change (2 ^ 1) with 2 in L. change (2 ^ N.succ 1) with 4 in U.
  assert (p = 2 \/ p = 3) as [->| ->] by lia; [discriminate H0|reflexivity].
Qed.

Lemma short_burst_In : forall e, short_burst e <-> In e short_burst_list.
Proof.
  intros e. unfold short_burst, burst, short_burst_list. rewrite in_app_iff, !in_map_iff. split.
  - intros [(i & p & E & B & L & _ & R)|(i & p & E & B & L & _ & R)].
    + left. exists i. rewrite (log2_cases_1 p B L) in E. split; [symmetry; exact E|].
      apply nseq_In; lia.
    + right. exists i. rewrite (log2_cases_2 p B L) in E. split; [symmetry; exact E|].
      apply nseq_In; lia.
  - intros [(i & E & Hi)|(i & E & Hi)]; apply nseq_sound in Hi.
    + left. exists i, 1. repeat split; try (subst; reflexivity); lia.
    + right. exists i, 3. repeat split; try (subst; reflexivity); lia.
Qed.

(* Every short burst of every offset is found in the table. *)
Lemma table_complete_sweep :
  forallb (fun o =>
    forallb (fun e =>
      match table_find error_lookup_table (calculateSyndrome (N.lxor e (offset_word o))) o with
      | Some e' => e' =? e
      | None => false
      end) short_burst_list)
  [OffA; OffB; OffC; OffCprime; OffD] = true.
Proof. vm_compute. reflexivity. Qed.

Lemma real_offset_In : forall o, real_offset o -> In o [OffA; OffB; OffC; OffCprime; OffD].
Proof. intros []; cbn; intuition. Qed.

Lemma table_complete : forall o e, real_offset o -> short_burst e ->
  table_find error_lookup_table (calculateSyndrome (N.lxor e (offset_word o))) o = Some e.
Proof.
  intros o e Ho He. apply short_burst_In in He. apply real_offset_In in Ho.
  pose proof (forallb_In _ _ o table_complete_sweep Ho) as S. cbn beta in S.
  pose proof (forallb_In _ _ e S He) as S'. cbn beta in S'.
  destruct (table_find _ _ o) as [e'|]; [|discriminate S'].
  apply N.eqb_eq in S'. subst. reflexivity.
Qed.

Lemma correct_cases : forall raw o,
  (exists e, table_find error_lookup_table (calculateSyndrome raw) o = Some e /\
             correctBurstErrors raw o = (true, N.lxor raw e)) \/
  (table_find error_lookup_table (calculateSyndrome raw) o = None /\
   correctBurstErrors raw o = (false, raw)).
Proof.
  intros raw o. unfold correctBurstErrors.
  destruct (table_find error_lookup_table (calculateSyndrome raw) o) as [e|].
  - left. exists e. split; reflexivity.
  - right. split; reflexivity.
Qed.

Lemma correct_exact : forall o d e, real_offset o -> d < 2 ^ 16 -> short_burst e ->
  correctBurstErrors (N.lxor (tx_block o d) e) o = (true, tx_block o d).
Proof.
  intros o d e Ho Hd He. unfold correctBurstErrors.
  rewrite syndrome_lxor, tx_syndrome, N.lxor_comm, <- syndrome_lxor by exact Hd.
  rewrite table_complete by assumption.
  rewrite N.lxor_assoc, N.lxor_nilpotent, N.lxor_0_r. reflexivity.
Qed.

(* Every entry of the table is a short burst for its offset. *)
Definition burst_eqb_list (e : N) : bool := existsb (N.eqb e) short_burst_list.
Lemma table_sound_sweep :
  forallb (fun ent : (N * Offset) * N =>
    burst_eqb_list (snd ent) &&
    negb (Offset_eqb (snd (fst ent)) OffInvalid) &&
    (calculateSyndrome (N.lxor (snd ent) (offset_word (snd (fst ent)))) =? fst (fst ent)))
  error_lookup_table = true.
Proof. vm_compute. reflexivity. Qed.

Lemma Offset_eqb_eq : forall a b, Offset_eqb a b = true <-> a = b.
Proof. intros [] []; cbn; split; intro H; congruence. Qed.

Lemma Offset_eqb_refl : forall a, Offset_eqb a a = true.
Proof. intros []; reflexivity. Qed.

Lemma table_sound : forall s o e, table_find error_lookup_table s o = Some e ->
  short_burst e /\ real_offset o /\ s = calculateSyndrome (N.lxor e (offset_word o)).
Proof.
  intros s o e H. unfold table_find in H.
  destruct (find _ error_lookup_table) as [ent|] eqn:F; [|discriminate H].
  injection H as <-. apply find_some in F. destruct F as [Hin Hm].
  apply andb_prop in Hm. destruct Hm as [Hs Ho]. apply N.eqb_eq in Hs. apply Offset_eqb_eq in Ho.
  pose proof (forallb_In _ _ ent table_sound_sweep Hin) as S. cbn beta in S.
  apply andb_prop in S. destruct S as [S S3]. apply andb_prop in S. destruct S as [S1 S2].
  apply N.eqb_eq in S3. split; [|split].
  - apply short_burst_In. unfold burst_eqb_list in S1. apply existsb_exists in S1.
    destruct S1 as (x & Hx & Hxe). apply N.eqb_eq in Hxe. subst x. exact Hx.
  - rewrite Ho in S2. intros ->. discriminate S2.
  - rewrite <- Hs, <- Ho. symmetry. exact S3.
Qed.

Lemma short_burst_lt : forall e, short_burst e -> e < 2 ^ 26.
Proof.
  intros e He. apply short_burst_In in He.
  assert (S : forallb (fun e => e <? 2 ^ 26) short_burst_list = true) by (vm_compute; reflexivity).
  apply N.ltb_lt. exact (forallb_In _ _ e S He).
Qed.

Lemma correct_sound : forall o v c, v < 2 ^ 26 ->
  correctBurstErrors v o = (true, c) ->
  exists e d, short_burst e /\ real_offset o /\ d < 2 ^ 16 /\ c = tx_block o d /\ v = N.lxor c e.
Proof.
  intros o v c Hv H.
  destruct (correct_cases v o) as [(e & F & E)|(_ & E)]; rewrite E in H; [|discriminate H].
  injection H as <-. apply table_sound in F. destruct F as (He & Ho & HS).
  exists e, (N.shiftr (N.lxor v e) 10).
  assert (Hc : N.lxor v e < 2 ^ 26) by (apply lxor_lt_pow2; [exact Hv|apply short_burst_lt, He]).
  split; [exact He|]. split; [exact Ho|]. split.
  - rewrite N.shiftr_div_pow2. change (2 ^ 26) with (2 ^ 16 * 2 ^ 10) in Hc.
    apply N.div_lt_upper_bound; lia.
  - split.
    + apply codeword_of_syndrome; [exact Hc|].
      rewrite syndrome_lxor, HS, syndrome_lxor.
      bits_ext n. rewrite !N.lxor_spec.
      destruct (N.testbit (calculateSyndrome e) n), (N.testbit (calculateSyndrome (offset_word o)) n);
        reflexivity.
    + rewrite N.lxor_assoc, N.lxor_nilpotent, N.lxor_0_r. reflexivity.
Qed.

Lemma correct_fail : forall o v c, correctBurstErrors v o = (false, c) -> c = v.
Proof.
  intros o v c H.
  destruct (correct_cases v o) as [(e & F & E)|(_ & E)]; rewrite E in H; [discriminate H|].
  injection H as <-. reflexivity.
Qed.

Lemma correct_complete : forall o v, v < 2 ^ 26 -> real_offset o ->
  (exists d e, d < 2 ^ 16 /\ short_burst e /\ v = N.lxor (tx_block o d) e) ->
  fst (correctBurstErrors v o) = true.
Proof.
  intros o v Hv Ho (d & e & Hd & He & ->). rewrite correct_exact by assumption. reflexivity.
Qed.

(* --- longer bursts --- *)

Lemma burst_sweep10 : all_below_pow2 10 0 (fun p =>
  forallb (fun i => negb (N.testbit p 0) || negb (i + N.log2 p + 1 <=? 26) ||
                    negb (calculateSyndrome (N.shiftl p i) =? 0)) (nseq 0 26)) = true.
Proof. vm_compute. reflexivity. Qed.

Lemma burst_pattern_lt : forall p len, N.testbit p 0 = true -> N.log2 p = len - 1 -> 0 < len ->
  p < 2 ^ len.
Proof.
  intros p len B L H. destruct (N.eq_dec p 0) as [->|Np]; [discriminate B|].
  apply N.log2_lt_pow2; lia.
Qed.

Lemma burst_detected : forall len e, len <= 10 -> burst len e -> calculateSyndrome e <> 0.
Proof.
  intros len e Hlen (i & p & E & B & L & H0 & R) HS.
  pose proof (burst_pattern_lt p len B L H0) as Hp.
  assert (Hp10 : p < 2 ^ 10).
  { eapply N.lt_le_trans; [exact Hp|]. apply N.pow_le_mono_r; lia. }
  pose proof (sweep_pow2 _ _ burst_sweep10 p Hp10) as S. cbn beta in S.
  pose proof (forallb_In _ _ i S ltac:(apply nseq_In; lia)) as S'. cbn beta in S'.
  rewrite B, <- E, HS in S'. cbn [negb orb] in S'.
  assert (C1 : (i + N.log2 p + 1 <=? 26) = true) by (apply N.leb_le; lia).
  rewrite C1 in S'. discriminate S'.
Qed.

Definition offset_syndrome (o : Offset) : N :=
  match o with
  | OffA => 0x3D8 | OffB => 0x3D4 | OffC => 0x25C | OffCprime => 0x3CC | OffD => 0x258
  | OffInvalid => 0
  end.

Lemma offset_syndrome_ok : forall o, calculateSyndrome (offset_word o) = offset_syndrome o.
Proof. intros []; vm_compute; reflexivity. Qed.

Lemma getOffset_inv : forall s o, getOffsetForSyndrome s = o -> o <> OffInvalid ->
  s = offset_syndrome o.
Proof.
  intros s o H Ho. unfold getOffsetForSyndrome in H.
  destruct (N.eqb_spec s 0x3D8); [subst; reflexivity|].
  destruct (N.eqb_spec s 0x3D4); [subst; reflexivity|].
  destruct (N.eqb_spec s 0x25C); [subst; reflexivity|].
  destruct (N.eqb_spec s 0x3CC); [subst; reflexivity|].
  destruct (N.eqb_spec s 0x258); [subst; reflexivity|].
  exfalso. apply Ho. symmetry. exact H.
Qed.

Lemma own_offset_rejects_burst : forall o d len e, d < 2 ^ 16 -> len <= 10 ->
  burst len e ->
  getOffsetForSyndrome (calculateSyndrome (N.lxor (tx_block o d) e)) <> o \/ o = OffInvalid.
Proof.
  intros o d len e Hd Hlen Hb.
  pose proof (burst_detected len e Hlen Hb) as HS.
  rewrite syndrome_lxor, tx_syndrome by exact Hd.
  destruct (Offset_eqb o OffInvalid) eqn:Ho; [right; apply Offset_eqb_eq; exact Ho|left].
  intro E. apply HS.
  assert (HE : getOffsetForSyndrome (N.lxor (offset_syndrome o) (calculateSyndrome e)) = o).
  { rewrite <- E at 2. rewrite offset_syndrome_ok. reflexivity. }
  clear E HS. generalize dependent (calculateSyndrome e). intros x HE.
  apply getOffset_inv in HE; [|intros ->; discriminate Ho].
  apply (f_equal (N.lxor (offset_syndrome o))) in HE.
  rewrite <- N.lxor_assoc, N.lxor_nilpotent, N.lxor_0_l in HE. exact HE.
Qed.

(* Bursts of length 3..5 have syndromes different from those of all short bursts. *)
Lemma burst_sweep5 : all_below_pow2 5 0 (fun p =>
  forallb (fun i => negb (N.testbit p 0) || negb (i + N.log2 p + 1 <=? 26) || (N.log2 p <? 2) ||
    forallb (fun e' => negb (calculateSyndrome (N.shiftl p i) =? calculateSyndrome e'))
            short_burst_list) (nseq 0 26)) = true.
Proof. vm_compute. reflexivity. Qed.

Lemma burst5_not_short : forall len e e', 3 <= len -> len <= 5 -> burst len e -> short_burst e' ->
  calculateSyndrome e <> calculateSyndrome e'.
Proof.
  intros len e e' Hlo Hhi (i & p & E & B & L & H0 & R) He' HS.
  pose proof (burst_pattern_lt p len B L H0) as Hp.
  assert (Hp5 : p < 2 ^ 5).
  { eapply N.lt_le_trans; [exact Hp|]. apply N.pow_le_mono_r; lia. }
  pose proof (sweep_pow2 _ _ burst_sweep5 p Hp5) as S. cbn beta in S.
  pose proof (forallb_In _ _ i S ltac:(apply nseq_In; lia)) as S'. cbn beta in S'.
  apply short_burst_In in He'.
  rewrite B, <- E in S'. cbn [negb orb] in S'.
  assert (C1 : (i + N.log2 p + 1 <=? 26) = true) by (apply N.leb_le; lia).
  assert (C2 : (N.log2 p <? 2) = false) by (apply N.ltb_ge; lia).
  rewrite C1, C2 in S'. cbn [negb orb] in S'.
  pose proof (forallb_In _ _ e' S' He') as S2. cbn beta in S2.
  apply negb_true_iff in S2. apply N.eqb_neq in S2. apply S2. exact HS.
Qed.

Lemma long_burst_not_corrected : forall o d len e, d < 2 ^ 16 -> 3 <= len -> len <= 5 ->
  burst len e ->
  correctBurstErrors (N.lxor (tx_block o d) e) o = (false, N.lxor (tx_block o d) e).
Proof.
  intros o d len e Hd Hlo Hhi Hb.
  destruct (correct_cases (N.lxor (tx_block o d) e) o) as [(e' & F & _)|(_ & E)]; [|exact E].
  exfalso. apply table_sound in F. destruct F as (He' & _ & HS).
  apply (burst5_not_short len e e' Hlo Hhi Hb He').
  rewrite syndrome_lxor, tx_syndrome, syndrome_lxor, N.lxor_comm in HS by exact Hd.
  apply (f_equal (fun z => N.lxor z (calculateSyndrome (offset_word o)))) in HS.
  rewrite !N.lxor_assoc, !N.lxor_nilpotent, !N.lxor_0_r in HS. exact HS.
Qed.

Lemma recognised_iff : forall w o, w < 2 ^ 26 -> real_offset o ->
  getOffsetForSyndrome (calculateSyndrome w) = o <-> exists d, d < 2 ^ 16 /\ w = tx_block o d.
Proof.
  intros w o Hw Ho. split.
  - intros H. exists (N.shiftr w 10). split.
    + rewrite N.shiftr_div_pow2. change (2 ^ 26) with (2 ^ 10 * 2 ^ 16) in Hw.
      apply N.div_lt_upper_bound; [discriminate|exact Hw].
    + apply codeword_of_syndrome; [exact Hw|]. rewrite offset_syndrome_ok.
      apply getOffset_inv; assumption.
  - intros (d & Hd & ->). apply tx_recognised; assumption.
Qed.

Lemma correct_iff : forall o v, v < 2 ^ 26 -> real_offset o ->
  fst (correctBurstErrors v o) = true <->
  exists d e, d < 2 ^ 16 /\ short_burst e /\ v = N.lxor (tx_block o d) e.
Proof.
  intros o v Hv Ho. split.
  - destruct (correctBurstErrors v o) as [ok c] eqn:C. cbn [fst]. intros ->.
    destruct (correct_sound o v c Hv C) as (e & d & He & _ & Hd & -> & E). exists d, e. auto.
  - intros H. apply correct_complete; assumption.
Qed.

Lemma own_offset_rejects_burst_real : forall o d len e, real_offset o -> d < 2 ^ 16 -> len <= 10 ->
  burst len e ->
  getOffsetForSyndrome (calculateSyndrome (N.lxor (tx_block o d) e)) <> o.
Proof.
  intros o d len e Ho Hd Hl Hb.
  destruct (own_offset_rejects_burst o d len e Hd Hl Hb) as [H|H]; [exact H|contradiction].
Qed.
