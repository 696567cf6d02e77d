(* How much a receiving channel keeps in memory: bytes, numbers and table entries, added up over
   everything it stores. *)
From Verif.Model Require Import Base Tables Group BlockSync Freq RdsString Rft Tmc Station Channel Options.
From Verif.Spec Require Import Session.

Definition count {A : Type} (l : list A) : N := N.of_nat (length l).
Definition total (l : list N) : N := fold_right N.add 0 l.

(* A text: what is being received (data_, and last_complete_data_ which is never longer), and the
   last complete text *)
Definition text_size (s : RDSString) : N := 2 * count (s_data s) + count (s_last_complete_string s).
Definition radiotext_size (r : RadioText) : N :=
  text_size (rt_text r) + count (rt_previous_potentially_complete_message r).

(* A std::map: its distinct keys, each with its value.  (In the model, a newer entry for a key hides
   an older one.) *)
Definition map_size {A : Type} (size : A -> N) (m : list (N * A)) : N :=
  total (map (fun k => 1 + match find_code k m with Some v => size v | None => 0 end)
             (nodup N.eq_dec (map fst m))).

Definition type_dec : forall a b : GroupType, {a = b} + {a <> b}.
Proof. repeat decide equality. Defined.

(* The distinct addresses a file transfer has stored segments and checksums for, five bytes and one
   flag for each segment.  (The program allocates room for all addresses at once.) *)
Definition file_size (f : RFTFile) : N :=
  5 * count (nodup N.eq_dec (map fst (rft_data f))) + count (nodup N.eq_dec (rft_recv f)) +
  count (nodup N.eq_dec (map fst (rft_crcs f))).

Definition frequencies_size (l : AltFreqList) : N := count (alt_freqs l).

Definition message_size (m : Message) : N :=
  count (m_events m) + count (m_supplementary m) + count (m_quantifiers m) + count (m_diversion m) +
  count (m_parts m).

Definition traffic_size (t : TMCService) : N :=
  message_size (t_message t) + text_size (t_ps t) + map_size frequencies_size (t_other_network_freqs t).

Definition station_size (st : Station) : N :=
  total [text_size (st_ps st); text_size (st_long_ps st); radiotext_size (st_radiotext st);
         radiotext_size (st_ert st); text_size (pn_text (st_ptyname st)); text_size (st_full_tdc st);
         count (nodup type_dec (map fst (st_oda_app_for_group st)));
         count (nodup N.eq_dec (map fst (st_oda_app_for_pipe st)));
         map_size text_size (st_eon_ps_names st); map_size frequencies_size (st_eon_alt_freqs st);
         frequencies_size (st_alt_freq_list st); traffic_size (st_tmc st);
         total (map file_size (st_rft_file st))].

Definition channel_size (c : Channel) : N :=
  station_size (ch_station c) + count (ra_history (ch_bler_average c)) +
  total (map (fun s => count (rs_history (bst_error_sum50 s))) (ch_block_stream c)).

(* The four words of a group are 16-bit numbers *)
Definition sixteen_bit (g : Group) : Prop := forall b, g_get g b < 65536.
Definition words_fit (x : call) : Prop := match x with Group_in _ g _ => sixteen_bit g | _ => True end.

(* The host's converter from UCS-2 makes at most three bytes of each byte (it makes at most three of
   each two) *)
Definition modest (ucs2 : bytes -> option bytes) : Prop :=
  forall b t, ucs2 b = Some t -> (length t <= 3 * length b)%nat.
