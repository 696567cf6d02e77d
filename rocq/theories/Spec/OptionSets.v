(* Which members of the output an option concerns. *)
From Verif.Model Require Import Base Options Station Channel.
From Verif.Spec Require Import Unicode JsonText Session.

Local Open Scope string_scope.

Definition differ (a b : bool) (members : list string) : list string := if Bool.eqb a b then [] else members.

(* The members that the options in which o and o' differ concern *)
Definition concerned (o o' : Options) : list string :=
  differ (o_timestamp o) (o_timestamp o') ["rx_time"] ++                                        (* -t *)
  (if bytes_eqb (o_time_format o) (o_time_format o') then [] else ["rx_time"]) ++
  differ (o_bler o) (o_bler o') ["bler"] ++                                                     (* --bler *)
  differ (o_show_raw o) (o_show_raw o') ["raw_data"] ++                                         (* --show-raw *)
  differ (o_streams o) (o_streams o') ["stream"] ++                                             (* --streams *)
  (if N.eqb (o_num_channels o) (o_num_channels o') then [] else ["channel"]) ++                 (* -c *)
  differ (o_rbds o) (o_rbds o') ["callsign"; "callsign_uncertain"; "prog_type"; "other_network"] ++   (* --rbds *)
  differ (o_show_partial o) (o_show_partial o')                                                 (* --show-partial *)
    ["partial_ps"; "partial_alt_frequencies"; "partial_radiotext"; "partial_long_ps"; "rt_ab"; "debug"].

(* A line that reports an error: debug is a text.  (In other lines it is a list of texts.) *)
Definition reports_error (line : bytes) : Prop := exists t, says line ["debug"] (VStr t).

(* Two lines for the same group under o and o': what no option concerns is the same.  Error reports
   come in pairs, except that showing partial texts may itself cause one. *)
Definition same_line (o o' : Options) (l l' : bytes) : Prop :=
  (forall k, ~ In k (concerned o o') -> line_at [k] l = line_at [k] l') \/
  (reports_error l /\ reports_error l') \/
  (o_show_partial o <> o_show_partial o' /\ (reports_error l \/ reports_error l')).
