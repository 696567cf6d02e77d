(* C98: how times are written. *)
From Verif.Model Require Import Base Util Group Options Json RdsString Tmc Station Channel.
From Verif.Spec Require Import JsonText Session Identity Quality Times TimeText Host Cases.
From Verif.Proofs Require Import Tac Numerals ChannelP UpdateP HistoryP HostP TimesP TimeTextP.
From Verif.Props Require Import P_Channel P_Times.

Local Open Scope string_scope.
Local Open Scope N_scope.
Local Open Scope list_scope.

(* --- C98 --- *)
(* A time, as it is shown according to C20 and C96, is written as the format says, with hundredths of a second for %f. *)
Theorem C98_time_written : forall env expand o line t s, strftime_is env expand -> (0 <= t)%Z ->
  says_time env o line t -> time_text expand (o_time_format o) t s -> says line ["rx_time"] (VStr (shown_text s)).
Proof. intros env expand o line t s S T0 X F. unfold says_time in X. rewrite (time_written env expand _ t s S T0 F) in X. exact X. Qed.
Print Assumptions C98_time_written.

(* So for groups that come as text, each line shows what the clock read, written in that way *)
Theorem C98_clock_time_written : forall env expand o gs c out, host_ok env -> strftime_is env expand -> o_output_type o = OutJSON -> o_timestamp o = true ->
  Forall received_group gs -> Forall (fun x => g_has_time (snd (fst x)) = false /\ (0 <= fst (fst x))%Z) gs ->
  Sorted.StronglySorted Z.le (map (fun x => fst (fst x)) gs) ->
  run_groups env o (Channel_new o 0) gs = Ok (c, out) ->
  Forall2 (fun x line => match line with
                         | Some l => only_error l \/ forall s, time_text expand (o_time_format o) (fst (fst x)) s -> says l ["rx_time"] (VStr (shown_text s))
                         | None => True end) gs out.
Proof.
  intros env expand o gs c out H St OJ OT R F S E. pose proof (C96_clock_time_shown env o gs c out H OJ OT R F S E) as X. clear R S E.
  induction X as [|x l gs out X Xs IH]; [constructor|]. rewrite Forall_cons_iff in F. destruct F as [[_ T0] F]. constructor; [|exact (IH F)].
  destruct l as [l|]; [|exact I]. destruct X as [X|X]; [left; exact X|right]. intros s Ts. exact (C98_time_written env expand o l _ s St T0 X Ts).
Qed.
Print Assumptions C98_clock_time_written.

(* Hexadecimal lines: the line without times, a blank, and the time *)
Theorem C98_hex_times_written : forall env expand o gs c d out plain, strftime_is env expand -> o_output_type o = OutHex -> o_timestamp o = true ->
  Forall (fun x => g_has_time (snd (fst x)) = false /\ (0 <= fst (fst x))%Z) gs -> Sorted.StronglySorted Z.le (map (fun x => fst (fst x)) gs) ->
  run_groups env o (Channel_new o 0) gs = Ok (c, out) -> run_groups env (without_times o) (Channel_new o 0) gs = Ok (d, plain) ->
  Forall2 (fun x line => match snd x with
                         | Some h => forall s, time_text expand (o_time_format o) (fst (fst (fst x))) s -> line = Some (h ++ [0x20] ++ shown_text s)
                         | None => line = None end) (combine gs plain) out.
Proof.
  intros env expand o gs c d out plain St OH OT F S E P.
  pose proof (hex_stamped env o OH OT gs (Channel_new o 0) (Channel_new o 0) c d out plain) as X.
  specialize (X ltac:(rewrite Forall_forall in *; intros x I; apply (F x I)) ltac:(rewrite Forall_forall in *; intros x I; apply (F x I)) S E P).
  assert (F2 : Forall (fun x => (0 <= fst (fst (fst x)))%Z) (combine gs plain)).
  { rewrite Forall_forall in *. intros [x y] I. apply in_combine_l in I. apply (F x I). }
  clear F S E P. induction X as [|x l cs out X Xs IH]; [constructor|]. rewrite Forall_cons_iff in F2. destruct F2 as [T0 F2]. constructor; [|exact (IH F2)].
  cbv beta in X, T0 |- *. destruct x as [y [h|]]; cbn [fst snd] in *; [|exact X]. intros s Ts. rewrite X, (time_written env expand _ _ s St T0 Ts). reflexivity.
Qed.
Print Assumptions C98_hex_times_written.

(* ---- cases ---- *)
(* A host with %s and %%; other conversions are left as they are *)
Fixpoint demo_expand (f : bytes) (t : Z) : bytes :=
  match f with
  | [] => []
  | c :: r => if c =? 37 then match r with
                              | d :: r' => (if d =? 115 then dec_string_Z t else if d =? 37 then [37] else [37; d]) ++ demo_expand r' t
                              | [] => [37] end
              else c :: demo_expand r t
  end.
Definition demo_strftime (f : bytes) (t : Z) : option bytes :=
  let s := demo_expand f t in if ((1 <=? length s) && (length s <=? 63))%nat then Some s else None.
Definition demo_host : Env := mkEnv (env_ucs2 plain_host) (env_what_iconv plain_host) (env_what_json plain_host) demo_strftime
  (env_localtime plain_host) (env_float plain_host) (env_tmc plain_host).
Lemma demo_host_ok : host_ok demo_host.
Proof. exact plain_host_ok. Qed.
Lemma demo_host_strftime : strftime_is demo_host demo_expand.
Proof.
  split; [|split].
  - intros a. remember (length a) as n eqn:L. assert (Hn : (length a <= n)%nat) by lia. clear L. revert a Hn. induction n as [|n IH]; intros [|c a] L b t A B; cbn [length] in L; try reflexivity; [lia|].
    cbn [app demo_expand]. destruct (N.eqb_spec c 37) as [->|Ne].
    + cbn [whole] in A. destruct a as [|d a]; [discriminate|]. cbn [app]. apply andb_true_iff in A. rewrite IH; [rewrite app_assoc; reflexivity|cbn [length] in L; lia|apply A|exact B].
    + rewrite whole_plain in A by exact Ne. rewrite IH; [reflexivity|lia|exact A|exact B].
  - intros c t Ne. cbn [demo_expand]. destruct (N.eqb_spec c 37); [contradiction|reflexivity].
  - intros f t _. reflexivity.
Qed.
Definition demo_options (format : bytes) (out : OutputType) : Options :=
  mkOptions false false false false false false false true false false false false true false
    (SpecFloat.S754_zero false) 1 HexInput out [] [] format.
(* Three groups of one station, at 0.07, 1.5 and 12.999 seconds *)
Definition timed_groups : list (Z * Group * N) :=
  map (fun x => (fst x, group4 0x2204 (0x0408 + snd x) 0xE0E0 0x4142, 0)) [(70000000%Z, 0); (1500000000%Z, 1); (12999999999%Z, 2)].
Example C98_case : time_text demo_expand (bs "%s.%f s") 12999999999 (bs "12.99 s") /\
  Forall (fun x => g_has_time (snd (fst x)) = false /\ (0 <= fst (fst x))%Z) timed_groups /\
  Sorted.StronglySorted Z.le (map (fun x => fst (fst x)) timed_groups) /\
  (exists c a b line, run_groups demo_host (demo_options (bs "%s.%f s") OutJSON) (Channel_new (demo_options (bs "%s.%f s") OutJSON) 0) timed_groups = Ok (c, [a; b; Some line]) /\
     says line ["rx_time"] (VStr (bs "12.99 s"))) /\
  (exists c, run_groups demo_host (demo_options (bs "%s.%f s") OutHex) (Channel_new (demo_options (bs "%s.%f s") OutHex) 0) timed_groups =
     Ok (c, map Some [bs "2204 0408 E0E0 4142 0.07 s"; bs "2204 0409 E0E0 4142 1.50 s"; bs "2204 040A E0E0 4142 12.99 s"])).
Proof.
  split.
  { right. exists (bs "%s."), (bs " s"). split; [reflexivity|]. split; [reflexivity|]. split; [reflexivity|]. split; [|vm_compute; reflexivity].
    intros a b E. do 4 (destruct a as [|? a]; [discriminate E|cbn in E; injection E as <- E || discriminate E]). }
  split; [repeat constructor; discriminate|]. split; [repeat constructor; discriminate|]. split.
  - do 4 eexists. split; [vm_compute; reflexivity|]. vm_compute. reflexivity.
  - eexists. vm_compute. reflexivity.
Qed.

(* "%%f" is a per cent sign and the letter f for strftime, but the program takes the last two characters for %f *)
Theorem C98_percent_refuted : ~ (forall env expand o gs c out, host_ok env -> strftime_is env expand -> o_output_type o = OutJSON -> o_timestamp o = true ->
  Forall received_group gs -> Forall (fun x => g_has_time (snd (fst x)) = false /\ (0 <= fst (fst x))%Z) gs ->
  Sorted.StronglySorted Z.le (map (fun x => fst (fst x)) gs) ->
  run_groups env o (Channel_new o 0) gs = Ok (c, out) -> whole (o_time_format o) = true ->
  Forall2 (fun x line => match line with
                         | Some l => only_error l \/ says l ["rx_time"] (VStr (shown_text (expand (o_time_format o) (fst (fst x) / 1000000000)%Z)))
                         | None => True end) gs out).
Proof.
  intros X. remember (demo_options (bs "%%f") OutJSON) as o eqn:Eo.
  destruct (run_groups demo_host o (Channel_new o 0) timed_groups) as [[c out]| |] eqn:E; [|rewrite Eo in E; vm_compute in E; discriminate E ..].
  specialize (X demo_host demo_expand o timed_groups c out demo_host_ok demo_host_strftime).
  assert (OJ : o_output_type o = OutJSON) by (rewrite Eo; reflexivity). assert (OT : o_timestamp o = true) by (rewrite Eo; reflexivity). assert (W : whole (o_time_format o) = true) by (rewrite Eo; reflexivity).
  assert (R : Forall received_group timed_groups) by (repeat constructor; vm_compute; auto).
  specialize (X OJ OT R ltac:(repeat constructor; discriminate) ltac:(repeat constructor; discriminate) E W).
  subst o. vm_compute in E. injection E as _ <-. inversion X as [|? ? ? ? _ X1]; subst. inversion X1 as [|? ? ? ? _ X2]; subst. inversion X2 as [|? ? ? ? X3 _]; subst.
  destruct X3 as [X3|X3]; [|vm_compute in X3; discriminate X3].
  destruct X3 as [msg X3]. vm_compute in X3. discriminate X3.
Qed.
Print Assumptions C98_percent_refuted.
