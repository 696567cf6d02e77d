(* RadioText Plus (EN 50067 annex P, 3.1.5.12 to 3.1.5.15): parts of the RadioText, with what they are. *)
From Verif.Model Require Import Base Group Tables.
From Verif.Spec Require Import Unicode JsonText Texts Apps.

(* The number of the application *)
Definition rtplus : N := 0x4BD7.

(* A group in which an application can be sent *)
Definition app_group (x : Group * N) : bool :=
  (snd x =? 0) && g_has_type (fst x) && existsb (GroupType_eqb (g_type (fst x))) for_applications.
(* Its type was assigned to RadioText Plus at some time *)
Definition of_plus (h : list (Group * N)) (x : Group * N) : Prop :=
  app_group x = true /\ In (g_type (fst x), rtplus) (flat_map announcement h).
(* The bits that tell one item (say, a song) from the next, and whether one is running *)
Definition item_bits (g : Group) : bool * bool := (N.testbit (blk_data (g_b2 g)) 4, N.testbit (blk_data (g_b2 g)) 3).

(* What a tag says of the text: [chars] characters from [start] on are of kind [content] *)
Record Tag := mkTag { content : N; start : N; chars : N }.
(* Two tags in one group: what its blocks 2 (the last five bits), 3 and 4 are *)
Definition tag_words (bits : bool * bool) (t1 t2 : Tag) : N * N * N :=
  (16 * N.b2n (fst bits) + 8 * N.b2n (snd bits) + content t1 / 8,
   8192 * (content t1 mod 8) + 128 * start t1 + 2 * (chars t1 - 1) + content t2 / 32,
   2048 * (content t2 mod 32) + 32 * start t2 + (chars t2 - 1)).
Definition tags_ok (t1 t2 : Tag) : Prop :=
  content t1 < 64 /\ start t1 < 64 /\ 1 <= chars t1 <= 64 /\ content t2 < 64 /\ start t2 < 64 /\ 1 <= chars t2 <= 32.
(* Kind 0 stands for no tag *)
Definition real (t : Tag) : bool := negb (content t =? 0).

(* The characters tagged *)
Definition tagged (l : list N) (t : Tag) : list N := firstn (N.to_nat (chars t)) (skipn (N.to_nat (start t)) l).
(* Characters that are one byte in UTF-8 *)
Definition ascii_at (l : list N) (i : N) : Prop := exists b, nth_error l (N.to_nat i) = Some b /\ rds_char (visible b) < 0x80.


(* The bytes of a RadioText of at most n characters: they end with the end mark, or there are n of them *)
Definition ended (n : N) (l : list N) : Prop :=
  (exists t, l = t ++ [end_of_text] /\ ~ In end_of_text t) \/ (N.of_nat (length l) = n /\ ~ In end_of_text l).
(* A character received again at its place, or one beyond the end *)
Definition agrees (l : list N) (pb : N * N) : Prop :=
  N.of_nat (length l) <= fst pb \/ nth_error l (N.to_nat (fst pb)) = Some (snd pb).
(* The tag lies within the text, not at the very end of one without an end mark; the character before it
   and its last character are one byte each *)
Definition fits (l : list N) (t : Tag) : Prop :=
  start t + chars t < N.of_nat (length l) /\ (start t = 0 \/ ascii_at l (start t - 1)) /\ ascii_at l (start t + chars t - 1).

(* What the parts can be.  A code has six bits. *)
Definition content_classes : list (string * list string) :=
  [("", ["dummy_class"]);
   ("item.", ["title"; "album"; "tracknumber"; "artist"; "composition"; "movement"; "conductor"; "composer"; "band"; "comment"; "genre"]);
   ("info.", ["news"; "news.local"; "stockmarket"; "sport"; "lottery"; "horoscope"; "daily_diversion"; "health"; "event"; "scene";
              "cinema"; "tv"; "date_time"; "weather"; "traffic"; "alarm"; "advertisement"; "url"; "other"]);
   ("stationname.", ["short"; "long"]);
   ("programme.", ["now"; "next"; "part"; "host"; "editorial_staff"; "frequency"; "homepage"; "subchannel"]);
   ("phone.", ["hotline"; "studio"; "other"]); ("sms.", ["studio"; "other"]); ("email.", ["hotline"; "studio"; "other"]);
   ("mms.", ["other"]); ("", ["chat"; "chat.centre"]); ("vote.", ["question"; "centre"]);
   ("", ["unknown"; "unknown"; "unknown"; "unknown"; "unknown"]);
   ("", ["place"; "appointment"; "identifier"; "purchase"; "get_data"])]%string.
Definition content_names : list string := flat_map (fun c => map (String.append (fst c)) (snd c)) content_classes.
(* (a number of more than six bits cannot be sent: no text at 64 and 65) *)
Definition content_name (code : N) : bytes :=
  if code <=? 65 then bs (nth (N.to_nat code) content_names EmptyString) else bs "unknown".

(* How a line shows it *)
Definition shows_tag (l : list N) (t : Tag) (v : jval) : Prop :=
  exists s, v = VObj [(bs "content-type", VStr (content_name (content t))); (bs "data", VStr s)] /\ trimmed (rds_text (tagged l t)) s.

(* Groups that the tags shown depend on *)
Definition matters (x : Group * N) : bool :=
  app_group x || negb (match announcement x with [] => true | _ => false end) || negb (match rt_segment x with [] => true | _ => false end).

(* The tags sent in a group: one in blocks 2 and 3, one in blocks 3 and 4 *)
Definition tags_in (g : Group) : list Tag :=
  let '(b2, b3, b4) := (blk_data (g_b2 g), blk_data (g_b3 g), blk_data (g_b4 g)) in
  (if blk_is_received (g_b3 g) then [mkTag (8 * (b2 mod 8) + b3 / 8192) (b3 / 128 mod 64) (b3 / 2 mod 64 + 1)] else []) ++
  (if blk_is_received (g_b3 g) && blk_is_received (g_b4 g) then [mkTag (32 * (b3 mod 2) + b4 / 2048) (b4 / 32 mod 64) (b4 mod 32 + 1)] else []).
(* Since the last change of the A/B flag, the text l had been received completely at some time (then, each
   of its characters was the one received last at its place) *)
Definition held (ps : list rt_part) (l : list N) : Prop :=
  exists earlier msg f v ws rest, ps = earlier ++ msg /\ uniform f v msg /\ part_writes msg = ws ++ rest /\ complete_text (rt_size v) ws l.

(* Tags on a text given by its characters: the same conditions, and how a line shows them *)
Definition one_byte_at (cs : list N) (i : N) : Prop := exists c, nth_error cs (N.to_nat i) = Some c /\ c < 0x80.
Definition fits_chars (cs : list N) (t : Tag) : Prop :=
  start t + chars t < N.of_nat (length cs) /\ (start t = 0 \/ one_byte_at cs (start t - 1)) /\ one_byte_at cs (start t + chars t - 1).
Definition shows_chars (cs : list N) (t : Tag) (v : jval) : Prop :=
  exists s, v = VObj [(bs "content-type", VStr (content_name (content t))); (bs "data", VStr s)] /\ trimmed (utf8_text (tagged cs t)) s.
