(* Each data stream has its own decoder. *)
From Verif.Model Require Import Base Util Float Group Options Input Dsp Main.
From Verif.Spec Require Import Inputs Biphase Demod.
From Verif.Proofs Require Import Tac DspP BiphaseP MainP.
Local Open Scope list_scope.

Section Demod.
  Context {D : Type} (lq : Liquid D).
  (* What became of the decoders [decs], given these symbols *)
  Definition decoded_to (streams : list N) (syms : list (list symbol)) (decs decs' : list (BiphaseDecoder * N)) (bits : list (list bool)) : Prop :=
    length syms = length streams /\ length bits = length streams /\ length decs' = length decs /\
    (forall n, ~ In n streams -> nth_error decs' (N.to_nat n) = nth_error decs (N.to_nat n)) /\
    forall i n, nth_error streams i = Some n -> exists dec dec', nth_error decs (N.to_nat n) = Some dec /\ nth_error decs' (N.to_nat n) = Some dec' /\
      decode_symbols dec (nth i syms []) = Ok (dec', nth i bits []).
  Lemma set_same : forall (A : Type) l i (x : A), (i < length l)%nat -> nth_error (list_set l i x) i = Some x.
  Proof. intros A. induction l as [|y l IH]; intros [|i] x L; cbn [length] in L; try lia; [reflexivity|]. cbn [list_set nth_error]. apply IH. lia. Qed.
  Lemma set_other : forall (A : Type) l i j (x : A), i <> j -> nth_error (list_set l i x) j = nth_error l j.
  Proof. intros A. induction l as [|y l IH]; intros [|i] [|j] x N; try lia; try reflexivity. cbn [list_set nth_error]. apply IH. lia. Qed.
  Lemma at_sample : forall n x streams s s' bits, NoDup streams -> Forall (fun st => st < 4) streams -> length (ss_decoders s) = 4%nat ->
    sample_streams lq (n mod 24 =? 0) x streams s = Ok (s', bits) ->
    ss_liquid s' = fst (found_at lq n x streams (ss_liquid s)) /\ ss_sample_num s' = ss_sample_num s /\ ss_ratio s' = ss_ratio s /\
    decoded_to streams (snd (found_at lq n x streams (ss_liquid s))) (ss_decoders s) (ss_decoders s') bits.
  Proof.
    intros n x. induction streams as [|st streams IH]; intros s s' bits ND F4 L4 E; cbn [sample_streams found_at] in *.
    - injection E as <- <-. cbn [fst snd]. split; [reflexivity|]. split; [reflexivity|]. split; [reflexivity|]. split; [reflexivity|]. split; [reflexivity|]. split; [reflexivity|]. split; [reflexivity|].
      intros i m H. destruct i; discriminate H.
    - apply NoDup_cons_iff in ND. destruct ND as [NI ND]. apply Forall_cons_iff in F4. destruct F4 as [H4 F4].
      cbv zeta. destruct (lq_sample lq (ss_liquid s) st x (n mod 24 =? 0)) as [d y] eqn:Eq.
      set (ys := match y with Some y0 => if n mod 24 =? 0 then [y0] else [] | None => [] end).
      assert (G : exists decs b dec dec', sample_streams lq (n mod 24 =? 0) x streams (mkSubcarrierSet (ss_sample_num s) (ss_ratio s) d decs) = Ok (s', tl bits) /\ bits = b :: tl bits /\
        nth_error (ss_decoders s) (N.to_nat st) = Some dec /\ nth_error decs (N.to_nat st) = Some dec' /\ (forall m, m <> st -> nth_error decs (N.to_nat m) = nth_error (ss_decoders s) (N.to_nat m)) /\ length decs = 4%nat /\
        decode_symbols dec ys = Ok (dec', b)).
      { destruct (nth_error (ss_decoders s) (N.to_nat st)) as [dec|] eqn:Ed; [|apply nth_error_None in Ed; lia].
        destruct y as [y|]; [destruct (n mod 24 =? 0)|]; cbn [bind] in E.
        - unfold arr_get in E. rewrite Ed in E. cbn [bind] in E. destruct (decode_symbol dec y) as [[dec' b]| |] eqn:Ey; cbn [bind] in E; try discriminate.
          destruct (sample_streams lq true x streams _) as [[s2 out]| |] eqn:Es; cbn [bind] in E; try discriminate. injection E as -> <-.
          exists (list_set (ss_decoders s) (N.to_nat st) dec'), b, dec, dec'. split; [exact Es|]. split; [reflexivity|]. split; [reflexivity|]. split; [apply set_same; lia|].
          split; [intros m Hm; apply set_other; lia|]. split; [rewrite list_set_len; exact L4|]. unfold ys. cbn [decode_symbols]. rewrite Ey. cbn [bind]. rewrite app_nil_r. reflexivity.
        - destruct (sample_streams lq false x streams _) as [[s2 out]| |] eqn:Es; cbn [bind] in E; try discriminate. injection E as -> <-.
          exists (ss_decoders s), [], dec, dec. split; [exact Es|]. auto 10.
        - destruct (n mod 24 =? 0); cbn [bind] in E.
          + destruct (sample_streams lq true x streams _) as [[s2 out]| |] eqn:Es; cbn [bind] in E; try discriminate. injection E as -> <-.
            exists (ss_decoders s), [], dec, dec. split; [exact Es|]. auto 10.
          + destruct (sample_streams lq false x streams _) as [[s2 out]| |] eqn:Es; cbn [bind] in E; try discriminate. injection E as -> <-.
            exists (ss_decoders s), [], dec, dec. split; [exact Es|]. auto 10. }
      destruct G as (decs & b & dec & dec' & Es & Eb & E1 & E2 & E3 & E4 & E5).
      destruct (IH (mkSubcarrierSet (ss_sample_num s) (ss_ratio s) d decs) _ _ ND F4 E4 Es) as (H1 & H2 & H3 & H5). cbn [ss_liquid ss_sample_num ss_ratio ss_decoders] in H1, H2, H3, H5.
      destruct (found_at lq n x streams d) as [d2 l]. cbn [fst snd] in *. split; [exact H1|]. split; [exact H2|]. split; [exact H3|].
      destruct H5 as (K1 & K2 & K3 & K4 & K5). rewrite Eb. split; [cbn [length]; lia|]. split; [cbn [length]; lia|]. split; [lia|]. split.
      + intros m Nm. cbn [In] in Nm. rewrite K4 by tauto. apply E3. intros ->. tauto.
      + intros [|i] m Hm; cbn [nth_error] in Hm.
        * injection Hm as <-. exists dec, dec'. split; [exact E1|]. split; [rewrite K4 by exact NI; exact E2|]. exact E5.
        * destruct (K5 i m Hm) as (dc & dc' & Q1 & Q2 & Q3). exists dc, dc'. cbn [nth]. split; [|split; assumption].
          rewrite <- Q1. symmetry. apply E3. intros ->. apply NI. exact (nth_error_In _ _ Hm).
  Qed.

  Lemma in_samples : forall streams, NoDup streams -> Forall (fun st => st < 4) streams -> forall samples s s' bits, length (ss_decoders s) = 4%nat ->
    process_samples lq streams samples s = Ok (s', bits) ->
    ss_liquid s' = fst (found_in lq (ss_sample_num s) samples streams (ss_liquid s)) /\ ss_ratio s' = ss_ratio s /\
    decoded_to streams (snd (found_in lq (ss_sample_num s) samples streams (ss_liquid s))) (ss_decoders s) (ss_decoders s') bits.
  Proof.
    intros streams ND F4. induction samples as [|x samples IH]; intros s s' bits L4 E; cbn [process_samples found_in] in *.
    - injection E as <- <-. cbn [fst snd]. split; [reflexivity|]. split; [reflexivity|]. split; [apply map_length|]. split; [apply map_length|]. split; [reflexivity|]. split; [reflexivity|].
      intros i n H. destruct (nth_error (ss_decoders s) (N.to_nat n)) as [dec|] eqn:Ed.
      2: { apply nth_error_None in Ed. rewrite Forall_forall in F4. pose proof (F4 n (nth_error_In _ _ H)). cbv beta in *. lia. }
      exists dec, dec. split; [reflexivity|]. split; [reflexivity|].
      assert (Z1 : forall (A : Type), nth i (map (fun _ : N => @nil A) streams) [] = []).
      { intros A. clear. revert i. induction streams as [|y l IH]; intros [|i]; try reflexivity. apply IH. }
      rewrite !Z1. reflexivity.
    - destruct (sample_streams lq (ss_sample_num s mod kDecimateRatio =? 0) x streams s) as [[s1 b1]| |] eqn:E1; cbn [bind] in E; try discriminate. cbv zeta in E.
      destruct (at_sample _ _ _ _ _ _ ND F4 L4 E1) as (H1 & H2 & H3 & H4).
      destruct (process_samples lq streams samples _) as [[s2 b2]| |] eqn:E2; cbn [bind] in E; try discriminate. injection E as -> <-.
      destruct (found_at lq (ss_sample_num s) x streams (ss_liquid s)) as [d1 l1]. cbn [fst snd] in H1, H4. destruct H4 as (K1 & K2 & K3 & K4 & K5).
      destruct (IH (mkSubcarrierSet (u32 (ss_sample_num s1 + 1)) (ss_ratio s1) (ss_liquid s1) (ss_decoders s1)) _ _ (eq_trans K3 L4) E2) as (H5 & H6 & H7). cbn [ss_liquid ss_sample_num ss_ratio ss_decoders] in H5, H6, H7.
      unfold u32 in H5, H7. change 4294967296 with (2 ^ 32) in H5, H7. rewrite H2, H1 in H5, H7.
      destruct (found_in lq ((ss_sample_num s + 1) mod 2 ^ 32) samples streams d1) as [d2 l2]. cbn [fst snd] in *. split; [exact H5|]. split; [congruence|].
      destruct H7 as (J1 & J2 & J3 & J4 & J5). split; [rewrite map_length, combine_length; lia|]. split; [rewrite map_length, combine_length; lia|]. split; [lia|]. split.
      + intros n Hn. rewrite J4, K4 by exact Hn. reflexivity.
      + intros i n Hi. destruct (K5 i n Hi) as (dec & dec1 & Q1 & Q2 & Q3). destruct (J5 i n Hi) as (dec1' & dec2 & Q4 & Q5 & Q6). rewrite Q2 in Q4. injection Q4 as <-.
        exists dec, dec2. split; [exact Q1|]. split; [exact Q5|].
        assert (Li : (i < length streams)%nat) by (apply nth_error_Some; congruence).
        assert (Z2 : forall (A : Type) (a b : list (list A)), length a = length streams -> length b = length streams -> nth i (map (fun p => fst p ++ snd p) (combine a b)) [] = nth i a [] ++ nth i b []).
        { intros A a b La Lb. clear -La Lb Li. revert i Li a b La Lb. induction streams as [|y l IH]; intros i Li [|p a] [|q b] La Lb; cbn [length] in *; try lia. destruct i as [|i]; [reflexivity|]. cbn [combine map nth]. apply IH; lia. }
        rewrite !Z2 by assumption. rewrite decode_app, Q3. cbn [bind]. rewrite Q6. reflexivity.
  Qed.
End Demod.
