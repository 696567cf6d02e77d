(* Base64 text and checksums of files. *)
From Verif.Model Require Import Util Rft.
From Verif.Spec Require Import Base64 Crc.
From Verif.Proofs Require Import Tac Syndrome.
From Coq Require Import Btauto.

(* --- base64 --- *)
Lemma sextet_sweep : forallb (fun v => match sextet (b64_char v) with Some x => x =? v | None => false end) (nseq 0 64) = true.
Proof. vm_compute. reflexivity. Qed.
Lemma sextet_char : forall v, sextet (b64_char v) = Some (v mod 64).
Proof.
  intros v. assert (E : b64_char v = b64_char (v mod 64)).
  { unfold b64_char. change 0x3F with (N.ones 6). rewrite !N.land_ones. change (2 ^ 6) with 64. rewrite N.mod_mod by discriminate. reflexivity. }
  rewrite E. pose proof (N.mod_lt v 64 ltac:(discriminate)) as L.
  pose proof (forallb_In _ _ (v mod 64) sextet_sweep (nseq_In 64 0 (v mod 64) ltac:(lia) ltac:(lia))) as H. cbv beta in H.
  destruct (sextet (b64_char (v mod 64))); [|discriminate]. apply N.eqb_eq in H. congruence.
Qed.
Lemma char_not_pad : forall v, sextet (b64_char v) <> None.
Proof. intros v. rewrite sextet_char. discriminate. Qed.

Lemma lor_add : forall a b k, b < 2 ^ k -> N.lor (N.shiftl a k) b = a * 2 ^ k + b.
Proof.
  intros a b k H. rewrite N.shiftl_mul_pow2. symmetry. rewrite N.add_nocarry_lxor; [apply N.lxor_lor|];
    apply N.bits_inj; intros i; rewrite N.land_spec, N.bits_0, <- N.shiftl_mul_pow2;
    (destruct (N.lt_ge_cases i k) as [L|L];
      [rewrite N.shiftl_spec_low by exact L; reflexivity
      |rewrite <- (N.mod_small b (2 ^ k)) by exact H; rewrite N.mod_pow2_bits_high by exact L; apply andb_false_r]).
Qed.

Lemma decode_base64 : forall data, Forall (fun b => b < 256) data -> decode64 (asBase64 data) = Some data.
Proof.
  assert (G : forall n data, (length data <= n)%nat -> Forall (fun b => b < 256) data -> decode64 (asBase64 data) = Some data).
  { induction n as [|n IH]; intros data L F.
    - destruct data; [reflexivity|cbn in L; lia].
    - destruct data as [|a [|b [|c r]]].
      + reflexivity.
      + inversion F as [|? ? Ha _]; subst. cbn [asBase64 decode64]. rewrite !sextet_char.
        change (sextet 61) with (@None N). cbv iota. change ((61 =? pad) && (61 =? pad)) with true. cbv iota.
        do 2 f_equal. rewrite N.shiftl_mul_pow2, !N.shiftr_div_pow2. change (2 ^ 16) with 65536. change (2 ^ 18) with 262144. change (2 ^ 12) with 4096. lia.
      + inversion F as [|? ? Ha F1]; subst. inversion F1 as [|? ? Hb _]; subst. cbn [asBase64 decode64]. rewrite !sextet_char.
        change (sextet 61) with (@None N). cbv iota. change (61 =? pad) with true. cbv iota.
        assert (E : N.lor (N.shiftl a 16) (N.shiftl b 8) = a * 65536 + b * 256).
        { rewrite lor_add; rewrite N.shiftl_mul_pow2; change (2 ^ 8) with 256; change (2 ^ 16) with 65536; lia. }
        rewrite E, !N.shiftr_div_pow2. change (2 ^ 6) with 64. change (2 ^ 18) with 262144. change (2 ^ 12) with 4096.
        f_equal. f_equal; [lia|]. f_equal. lia.
      + inversion F as [|? ? Ha F1]; subst. inversion F1 as [|? ? Hb F2]; subst. inversion F2 as [|? ? Hc F3]; subst.
        cbn [asBase64 decode64]. rewrite !sextet_char. rewrite IH by (cbn in L; lia || assumption).
        assert (E : N.lor (N.lor (N.shiftl a 16) (N.shiftl b 8)) c = a * 65536 + b * 256 + c).
        { rewrite (lor_add a) by (rewrite N.shiftl_mul_pow2; change (2 ^ 8) with 256; change (2 ^ 16) with 65536; lia).
          rewrite N.shiftl_mul_pow2. replace (a * 2 ^ 16 + b * 2 ^ 8) with ((a * 256 + b) * 2 ^ 8) by (change (2 ^ 16) with 65536; change (2 ^ 8) with 256; lia).
          rewrite <- N.shiftl_mul_pow2. rewrite lor_add by (change (2 ^ 8) with 256; lia). change (2 ^ 8) with 256. lia. }
        rewrite E, !N.shiftr_div_pow2. change (2 ^ 6) with 64. change (2 ^ 18) with 262144. change (2 ^ 12) with 4096.
        f_equal. f_equal; [lia|]. f_equal; [lia|]. f_equal. lia. }
  intros data F. exact (G (length data) data (Nat.le_refl _) F).
Qed.

(* --- checksum --- *)
Definition step8 (r b : N) : N := fold_left crc_bit (bits_of_byte b) r.

Lemma u32_land : forall x, u32 x = N.land x 0xFFFFFFFF.
Proof. intros x. change 0xFFFFFFFF with (N.ones 32). rewrite N.land_ones. reflexivity. Qed.
Lemma u8_land : forall x, u8 x = N.land x 0xFF.
Proof. intros x. change 0xFF with (N.ones 8). rewrite N.land_ones. reflexivity. Qed.

Lemma crc_bit_lxor : forall r r' a b, crc_bit (N.lxor r r') (xorb a b) = N.lxor (crc_bit r a) (crc_bit r' b).
Proof.
  intros r r' a b. unfold crc_bit. rewrite N.lxor_spec.
  assert (E : (N.lxor r r' * 2) mod 2 ^ 16 = N.lxor ((r * 2) mod 2 ^ 16) ((r' * 2) mod 2 ^ 16)).
  { rewrite <- !(N.land_ones _ 16). change 2 with (2 ^ 1). rewrite <- !N.shiftl_mul_pow2. rewrite N.shiftl_lxor.
    bits_ext i. rewrite !N.land_spec, !N.lxor_spec, !N.land_spec. destruct (N.testbit (N.ones 16) i); rewrite ?andb_true_r, ?andb_false_r; reflexivity. }
  rewrite E. destruct (N.testbit r 15), (N.testbit r' 15), a, b; cbn [xorb]; bits_ext i; rewrite !N.lxor_spec;
    destruct (N.testbit ((r * 2) mod 2 ^ 16) i), (N.testbit ((r' * 2) mod 2 ^ 16) i), (N.testbit 0x1021 i); reflexivity.
Qed.
Lemma step8_lxor : forall r r' b b', step8 (N.lxor r r') (N.lxor b b') = N.lxor (step8 r b) (step8 r' b').
Proof.
  intros r r' b b'. unfold step8, bits_of_byte. cbn [map fold_left]. rewrite !N.lxor_spec, !crc_bit_lxor. reflexivity.
Qed.

Definition lin (crc byte : N) : N :=
  let crc := N.land (N.lxor (N.land (N.shiftr crc 8) 0xFF) (N.shiftl crc 8)) 0xFFFFFFFF in
  let crc := N.lxor crc byte in
  let crc := N.lxor crc (N.shiftr (N.land crc 0xFF) 4) in
  let crc := N.lxor crc (N.land (N.shiftl (N.land (N.shiftl crc 8) 0xFFFFFFFF) 4) 0xFFFFFFFF) in
  N.land (N.lxor crc (N.shiftl (N.shiftl (N.land crc 0xFF) 4) 1)) 0xFFFF.

Lemma crc_step_lin : forall c b, N.land (crc_step c b) 0xFFFF = lin c b.
Proof.
  intros c b. unfold crc_step, lin. cbv zeta. rewrite !u32_land, u8_land.
  replace (N.lor (N.land (N.shiftr c 8) 0xFF) (N.shiftl c 8)) with (N.lxor (N.land (N.shiftr c 8) 0xFF) (N.shiftl c 8)); [reflexivity|].
  apply N.lxor_lor. bits_ext i. rewrite !N.land_spec, N.bits_0. destruct (N.lt_ge_cases i 8) as [L|L].
  - rewrite N.shiftl_spec_low by exact L. apply andb_false_r.
  - change 0xFF with (N.ones 8). rewrite (N.ones_spec_high 8 i) by exact L. rewrite andb_false_r. reflexivity.
Qed.

Lemma land_lxor_l : forall a b c, N.land (N.lxor a b) c = N.lxor (N.land a c) (N.land b c).
Proof. intros. bits_ext i. rewrite !N.land_spec, !N.lxor_spec, !N.land_spec. destruct (N.testbit a i), (N.testbit b i), (N.testbit c i); reflexivity. Qed.
Definition L1 (c : N) : N := N.land (N.lxor (N.land (N.shiftr c 8) 0xFF) (N.shiftl c 8)) 0xFFFFFFFF.
Definition L2 (c : N) : N := N.lxor c (N.shiftr (N.land c 0xFF) 4).
Definition L3 (c : N) : N := N.lxor c (N.land (N.shiftl (N.land (N.shiftl c 8) 0xFFFFFFFF) 4) 0xFFFFFFFF).
Definition L4 (c : N) : N := N.land (N.lxor c (N.shiftl (N.shiftl (N.land c 0xFF) 4) 1)) 0xFFFF.
Lemma lin_stages : forall c b, lin c b = L4 (L3 (L2 (N.lxor (L1 c) b))).
Proof. reflexivity. Qed.
Ltac linear := intros; unfold L1, L2, L3, L4; repeat first [ rewrite N.shiftr_lxor | rewrite N.shiftl_lxor | rewrite land_lxor_l ];
  match goal with |- ?x = ?y => idtac end; apply N.bits_inj; intro; rewrite !N.lxor_spec; btauto.
Lemma L1_lxor : forall a b, L1 (N.lxor a b) = N.lxor (L1 a) (L1 b). Proof. linear. Qed.
Lemma L2_lxor : forall a b, L2 (N.lxor a b) = N.lxor (L2 a) (L2 b). Proof. linear. Qed.
Lemma L3_lxor : forall a b, L3 (N.lxor a b) = N.lxor (L3 a) (L3 b). Proof. linear. Qed.
Lemma L4_lxor : forall a b, L4 (N.lxor a b) = N.lxor (L4 a) (L4 b). Proof. linear. Qed.
Lemma lin_lxor : forall c c' b b', lin (N.lxor c c') (N.lxor b b') = N.lxor (lin c b) (lin c' b').
Proof.
  intros c c' b b'. rewrite !lin_stages, <- L4_lxor, <- L3_lxor, <- L2_lxor, L1_lxor. do 3 f_equal.
  bits_ext i. rewrite !N.lxor_spec. btauto.
Qed.
Lemma lin_high : forall c, N.land c 0xFFFF = 0 -> lin c 0 = 0.
Proof.
  intros c H.
  assert (B : forall i, i < 16 -> N.testbit c i = false).
  { intros i L. pose proof (f_equal (fun x => N.testbit x i) H) as E. cbv beta in E. rewrite N.land_spec, N.bits_0 in E.
    change 0xFFFF with (N.ones 16) in E. rewrite N.ones_spec_low in E by exact L. rewrite andb_true_r in E. exact E. }
  assert (E1 : forall i, i < 24 -> N.testbit (L1 c) i = false).
  { intros i L. unfold L1. rewrite N.land_spec, N.lxor_spec, N.land_spec, N.shiftr_spec'. change 0xFF with (N.ones 8).
    destruct (N.lt_ge_cases i 8) as [L8|L8].
    - rewrite B by lia. rewrite N.shiftl_spec_low by exact L8. reflexivity.
    - rewrite N.ones_spec_high by exact L8. rewrite andb_false_r. rewrite N.shiftl_spec_high' by exact L8. rewrite B by lia. reflexivity. }
  assert (Z : forall x k, (forall i, i < k -> N.testbit x i = false) -> forall m, N.land (N.ones k) m = m -> N.land x m = 0).
  { intros x k Hx m Hm. rewrite <- Hm. bits_ext i. rewrite !N.land_spec, N.bits_0. destruct (N.lt_ge_cases i k) as [L|L].
    - rewrite Hx by exact L. reflexivity.
    - rewrite N.ones_spec_high by exact L. cbn [andb]. apply andb_false_r. }
  rewrite lin_stages, N.lxor_0_r. set (x := L1 c) in *. clearbody x.
  assert (E2 : L2 x = x). { unfold L2. rewrite (Z x 24 E1 0xFF eq_refl). apply N.lxor_0_r. }
  rewrite E2.
  assert (E3 : forall i, i < 24 -> N.testbit (L3 x) i = false).
  { intros i L. unfold L3. rewrite N.lxor_spec, E1 by exact L. rewrite N.land_spec.
    destruct (N.lt_ge_cases i 4) as [L4'|L4']; [rewrite N.shiftl_spec_low by exact L4'; reflexivity|].
    rewrite N.shiftl_spec_high' by exact L4'. rewrite N.land_spec.
    destruct (N.lt_ge_cases (i - 4) 8) as [L8|L8]; [rewrite N.shiftl_spec_low by exact L8; reflexivity|].
    rewrite N.shiftl_spec_high' by exact L8. rewrite E1 by lia. reflexivity. }
  unfold L4. rewrite (Z (L3 x) 24 E3 0xFF eq_refl). rewrite N.shiftl_0_l, N.lxor_0_r. exact (Z (L3 x) 24 E3 0xFFFF eq_refl).
Qed.
Lemma lin_low : forall c b, lin c b = lin (c mod 2 ^ 16) b.
Proof.
  intros c b. assert (E : c = N.lxor (c mod 2 ^ 16) (N.lxor (c mod 2 ^ 16) c)).
  { rewrite <- N.lxor_assoc, N.lxor_nilpotent, N.lxor_0_l. reflexivity. }
  rewrite E at 1. replace b with (N.lxor b 0) at 1 by apply N.lxor_0_r. rewrite lin_lxor.
  rewrite (lin_high (N.lxor (c mod 2 ^ 16) c)); [apply N.lxor_0_r|].
  rewrite land_lxor_l. change 0xFFFF with (N.ones 16). rewrite !N.land_ones. rewrite N.mod_mod by discriminate. apply N.lxor_nilpotent.
Qed.

Lemma basis_sweep_reg : forallb (fun i => lin (2 ^ i) 0 =? step8 (2 ^ i) 0) (nseq 0 16) = true.
Proof. vm_compute. reflexivity. Qed.
Lemma basis_sweep_byte : forallb (fun i => lin 0 (2 ^ i) =? step8 0 (2 ^ i)) (nseq 0 8) = true.
Proof. vm_compute. reflexivity. Qed.
Lemma lin_step8 : forall c b, c < 2 ^ 16 -> b < 2 ^ 8 -> lin c b = step8 c b.
Proof.
  intros c b Hc Hb. replace c with (N.lxor c 0) by apply N.lxor_0_r. replace b with (N.lxor 0 b) by apply N.lxor_0_l.
  rewrite lin_lxor, step8_lxor. f_equal.
  - revert c Hc. apply (xor_ind (fun c => lin c 0 = step8 c 0) 16); [reflexivity| |].
    + intros i Hi. apply N.eqb_eq. exact (forallb_In _ _ (N.of_nat i) basis_sweep_reg (nseq_In 16 0 (N.of_nat i) ltac:(lia) ltac:(lia))).
    + intros x y Hx Hy. replace 0 with (N.lxor 0 0) by reflexivity. rewrite lin_lxor, step8_lxor. congruence.
  - revert b Hb. apply (xor_ind (fun b => lin 0 b = step8 0 b) 8); [reflexivity| |].
    + intros i Hi. apply N.eqb_eq. exact (forallb_In _ _ (N.of_nat i) basis_sweep_byte (nseq_In 8 0 (N.of_nat i) ltac:(lia) ltac:(lia))).
    + intros x y Hx Hy. replace 0 with (N.lxor 0 0) by reflexivity. rewrite lin_lxor, step8_lxor. congruence.
Qed.
Lemma crc_bit_lt : forall r b, crc_bit r b < 2 ^ 16.
Proof.
  intros r b. unfold crc_bit. assert (L : (r * 2) mod 2 ^ 16 < 2 ^ 16) by (apply N.mod_lt; discriminate).
  destruct (xorb _ _); [apply lxor_lt_pow2; [exact L|reflexivity]|exact L].
Qed.
Lemma crc_register : forall data c, Forall (fun b => b < 256) data ->
  fold_left crc_step data c mod 2 ^ 16 = fold_left crc_bit (flat_map bits_of_byte data) (c mod 2 ^ 16).
Proof.
  induction data as [|b data IH]; intros c F; [reflexivity|]. inversion F as [|? ? Hb F1]; subst.
  cbn [fold_left flat_map]. rewrite fold_left_app. rewrite IH by exact F1. f_equal.
  rewrite <- (N.land_ones _ 16). change (N.ones 16) with 0xFFFF. rewrite crc_step_lin, lin_low. apply lin_step8; [apply N.mod_lt; discriminate|exact Hb].
Qed.
Lemma crc_correct : forall data, data <> [] -> Forall (fun b => b < 256) data -> crc16_ccitt data = crc16 data.
Proof.
  intros data Hn F. unfold crc16_ccitt, crc16. destruct data as [|b r]; [contradiction|].
  rewrite land_lxor_l. change 0xFFFF with (N.ones 16) at 2. rewrite N.land_ones.
  change (N.land 0xFFFF 0xFFFF) with 0xFFFF. f_equal. rewrite (crc_register (b :: r) 0xFFFF F). reflexivity.
Qed.
