(* What a program using one receiving channel may do, and what it may rely on. *)
From Verif.Model Require Import Base Group Options Json Tmc Station Channel.
From Verif.Spec Require Import Unicode JsonText Calendar.

(* The calls a program makes on a channel *)
Inductive call :=
| Group_in (now : Z) (g : Group) (stream : N)                (* a whole group (hex, TEF6686 input) *)
| Bit_in (now : Z) (bit : bool) (stream : N)                 (* one bit (ASCII bit input) *)
| Bits_in (received now : Z) (bits : list bool) (stream : N) (* a buffer of bits (demodulated input) *)
| Flush (now : Z)                                            (* end of input *)
| Reset_pi.                                                  (* carrier lost *)

(* Buffers have fewer than 2^53 bits; a group comes without an error rate *)
Definition possible (x : call) : Prop :=
  match x with
  | Group_in _ g w => g_has_bler g = false /\ w < 4
  | Bit_in _ _ w => w < 4
  | Bits_in _ _ bits w => N.of_nat (length bits) < 9007199254740992 /\ w < 4
  | Flush _ => True
  | Reset_pi => True
  end.

Definition do_call (env : Env) (o : Options) (c : Channel) (x : call) : res (Channel * list (option bytes)) :=
  match x with
  | Group_in now g w => '(c, line) <- processGroup env o now c g w ;; Ok (c, [line])
  | Bit_in now b w => '(c, line) <- processBit env o now c b w ;; Ok (c, [line])
  | Bits_in t now bits w => processBits env o c t now bits w
  | Flush now => flush env o now c
  | Reset_pi => Ok (resetPI c, [])
  end.

(* The lines that were printed *)
Definition printed (out : list (option bytes)) : list bytes :=
  flat_map (fun x => match x with Some l => [l] | None => [] end) out.

(* A sequence of calls; the result is the final state and every line printed, in order. *)
Fixpoint session (env : Env) (o : Options) (c : Channel) (calls : list call) : res (Channel * list bytes) :=
  match calls with
  | [] => Ok (c, [])
  | x :: r =>
      '(c, out) <- do_call env o c x ;;
      '(c, lines) <- session env o c r ;;
      Ok (c, printed out ++ lines)
  end.

(* A channel as the program creates it *)
Definition created (o : Options) (c : Channel) : Prop :=
  (exists w, c = Channel_new o w) \/ (exists pi, c = Channel_new_pi o pi).

(* Assumptions about the host: the keys of the TMC service key table describe 16-bit operations, error
   messages are UTF-8 and the JSON library writes numbers as JSON numbers (or null). *)
Definition host_ok (env : Env) : Prop :=
  (forall i k, td_key (env_tmc env) i = Some k ->
     key_xorstart k < 32 /\ key_xorval k * 2 ^ key_xorstart k < 2 ^ 32) /\
  (forall j, is_utf8 (env_what_json env j)) /\
  (forall f, env_float env f = bs "null" \/ json_number (env_float env f) = true).

(* One line of output: the text of one JSON object without repeated member names, in UTF-8 and
   without control characters (so without line breaks). *)
Definition well_formed (line : bytes) : Prop :=
  (exists members, read_json line = Some (VObj members) /\ NoDup (map fst members)) /\
  is_utf8 line /\ Forall (fun c => 32 <= c) line.

(* The JSON value at a member of the line *)
Definition says (line : bytes) (path : list string) (v : jval) : Prop := line_at path line = Some v.
Definition lacks (line : bytes) (key : string) : Prop := line_at [key] line = None.

(* Broken-down time [t] seconds after the start of modified Julian date 0 *)
Definition tm_of (t : Z) : Tm :=
  let '(y, m, d) := date_of_mjd (Z.to_N (t / 86400)) in
  mkTm (y - 1900) (m - 1) d (t mod 86400 / 3600) (t mod 3600 / 60) (t mod 60).

(* The host's mktime and localtime are plain calendar arithmetic (the host's time zone has no
   daylight saving time) on the dates 1900-03-01 to 2100-02-28. *)
Definition plain_clock (env : Env) : Prop :=
  forall n y m d h mi s, 15079 <= n <= 88127 -> date_of_mjd n = (y, m, d) ->
    (0 <= h <= 23)%Z -> (0 <= mi <= 59)%Z -> (-86400 < s < 86400)%Z ->
    env_localtime env (mkTm (y - 1900) (m - 1) d h mi s) =
    tm_of (Z.of_N n * 86400 + h * 3600 + mi * 60 + s).

(* The bits a program feeds to a channel, each with its data stream *)
Definition fed (calls : list call) : list (N * bool) :=
  flat_map (fun x => match x with
                     | Bit_in _ b w => [(w, b)]
                     | Bits_in _ _ bits w => map (pair w) bits
                     | _ => []
                     end) calls.
Definition feeds_bits (x : call) : Prop :=
  match x with Bit_in _ _ _ => True | Bits_in _ _ _ _ => True | _ => False end.
Definition on_stream (w : N) (l : list (N * bool)) : list bool :=
  flat_map (fun x => if fst x =? w then [snd x] else []) l.

(* What the host and the TMC tables supply as text is UTF-8 *)
Definition host_text (env : Env) : Prop :=
  is_utf8 (env_what_iconv env) /\
  (forall format t s, env_strftime env format t = Some s -> is_utf8 s) /\
  (forall c e, td_event (env_tmc env) c = Some e ->
     is_utf8 (ev_description e) /\ is_utf8 (ev_description_with_quantifier e)) /\
  (forall c s, td_suppl (env_tmc env) c = Some s -> is_utf8 s) /\
  (forall l c p, db_points (td_locdb (env_tmc env) l) c = Some p -> is_utf8 (pt_name1 p) /\ is_utf8 (pt_road_name p)) /\
  (forall l c r, db_roads (td_locdb (env_tmc env) l) c = Some r -> is_utf8 (road_number r) /\ is_utf8 (road_name r)).

(* A state of a channel after any calls *)
Definition reachable (env : Env) (o : Options) (c : Channel) : Prop :=
  exists c0 calls lines, created o c0 /\ Forall possible calls /\ session env o c0 calls = Ok (c, lines).

(* The group was recognised as being of this type *)
Definition is_type (g : Group) (number : N) (version : Version) : Prop :=
  g_has_type g = true /\ g_type g = mkGroupType number version.
