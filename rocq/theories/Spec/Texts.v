(* Texts sent character by character (programme service name, RadioText and so on): which characters
   a receiver has, and what it may show.  Independent of the model's text buffer. *)
From Verif.Model Require Import Base Group.
From Verif.Spec Require Import Unicode.

(* The RDS character set: the Unicode character for each code.  0x20..0x7F is ASCII with four
   replacements; 0x80..0xFF is the second half of the table. *)
Definition upper_half : list N :=
  [
   0xE1; 0xE0; 0xE9; 0xE8; 0xED; 0xEC; 0xF3; 0xF2; 0xFA; 0xF9; 0xD1; 0xC7; 0x15E; 0x3B2; 0xA1; 0x132;
   0xE2; 0xE4; 0xEA; 0xEB; 0xEE; 0xEF; 0xF4; 0xF6; 0xFB; 0xFC; 0xF1; 0xE7; 0x15F; 0x1E7; 0x131; 0x133;
   0xAA; 0x3B1; 0xA9; 0x2030; 0x1E6; 0x11B; 0x148; 0x151; 0x3C0; 0x20AC; 0xA3; 0x24; 0x2190; 0x2191; 0x2192; 0x2193;
   0xBA; 0xB9; 0xB2; 0xB3; 0xB1; 0x130; 0x144; 0x171; 0xB5; 0xBF; 0xF7; 0xB0; 0xBC; 0xBD; 0xBE; 0xA7;
   0xC1; 0xC0; 0xC9; 0xC8; 0xCD; 0xCC; 0xD3; 0xD2; 0xDA; 0xD9; 0x158; 0x10C; 0x160; 0x17D; 0xD0; 0x13F;
   0xC2; 0xC4; 0xCA; 0xCB; 0xCE; 0xCF; 0xD4; 0xD6; 0xDB; 0xDC; 0x159; 0x10D; 0x161; 0x17E; 0x111; 0x140;
   0xC3; 0xC5; 0xC6; 0x152; 0x177; 0xDD; 0xD5; 0xD8; 0xDE; 0x14A; 0x154; 0x106; 0x15A; 0x179; 0x166; 0xF0;
   0xE3; 0xE5; 0xE6; 0x153; 0x175; 0xFD; 0xF5; 0xF8; 0xFE; 0x14B; 0x155; 0x107; 0x15B; 0x17A; 0x167; 0x20].
Definition rds_char (code : N) : N :=
  if code <? 0x20 then
    if code =? 0x0A then 0x0A else if code =? 0x0D then 0x0D else if code =? 0x1F then 0xAD else 0x20
  else if code <? 0x80 then
    if code =? 0x24 then 0xA4            (* currency sign *)
    else if code =? 0x5E then 0x2015     (* horizontal bar *)
    else if code =? 0x60 then 0x2016     (* double vertical line *)
    else if code =? 0x7E then 0xAF       (* macron *)
    else if code =? 0x7F then 0x20
    else code
  else nth (N.to_nat (code - 0x80)) upper_half 0x20.

(* The end of a text is marked by 0x0D.  Neither it nor a zero byte is shown. *)
Definition end_of_text : N := 0x0D.
Definition visible (b : N) : N := if (b =? 0) || (b =? end_of_text) then 0x20 else b.

(* The text of received bytes, in UTF-8 *)
Definition rds_text (l : list N) : bytes := utf8_text (map (fun b => rds_char (visible b)) l).

(* Without trailing blanks *)
Definition trimmed (t : bytes) (s : bytes) : Prop :=
  exists n, t = s ++ repeat 0x20 n /\ forall r, s <> r ++ [0x20].

(* Characters received, in order: position and byte *)
Definition writes := list (N * N).

(* The byte most recently received at a position *)
Fixpoint first_at (i : N) (ws : writes) : option N :=
  match ws with
  | [] => None
  | (p, b) :: r => if p =? i then Some b else first_at i r
  end.
Definition last_at (i : N) (ws : writes) : option N := first_at i (rev ws).

(* in_sequence n ws: since position 0 was last received, each of the positions 1, 2, ... n-1 was
   received, in this order, and each time directly after the position before it. *)
Inductive in_sequence : N -> writes -> Prop :=
| in_start : forall ws b, in_sequence 1 (ws ++ [(0, b)])
| in_next : forall ws n c b, in_sequence (n + 1) (ws ++ [(n, c)]) -> in_sequence (n + 2) (ws ++ [(n, c); (n + 1, b)])
| in_other : forall ws n p b, in_sequence n ws -> p <> 0 -> in_sequence n (ws ++ [(p, b)]).

(* The first positions have been received without gaps, and [l] holds what was received last at
   each of them *)
Definition gapless (ws : writes) (l : list N) : Prop :=
  in_sequence (N.of_nat (length l)) ws /\
  forall i b, nth_error l i = Some b -> last_at (N.of_nat i) ws = Some b.

(* A complete text of at most [size] characters: it fills all positions or its last byte, and no
   other, marks the end *)
Definition complete_text (size : N) (ws : writes) (l : list N) : Prop :=
  gapless ws l /\
  ((N.of_nat (length l) = size /\ ~ In end_of_text l) \/
   exists l', l = l' ++ [end_of_text] /\ ~ In end_of_text l').

(* The two bytes of a block *)
Definition hi (b : N) : N := b / 256.
Definition lo (b : N) : N := b mod 256.

(* Group g, received on data stream w, is a group of the main data stream of one of these types, with
   blocks 3 and 4 received *)
Definition carries (number : N) (g : Group) (w : N) : bool :=
  (w =? 0) && g_has_type g && (gt_number (g_type g) =? number) &&
  negb (Version_eqb (gt_version (g_type g)) VC) &&
  blk_is_received (g_b3 g) && blk_is_received (g_b4 g).

(* Programme service name: groups 0A and 0B carry two of the eight characters, in block 4 *)
Definition ps_segment (x : Group * N) : list (N * N * N) :=
  let '(g, w) := x in
  if carries 0 g w
  then [(blk_data (g_b2 g) mod 4, hi (blk_data (g_b4 g)), lo (blk_data (g_b4 g)))] else [].
Definition ps_writes (h : list (Group * N)) : writes :=
  flat_map (fun s => let '(n, a, b) := s in [(2 * n, a); (2 * n + 1, b)]) (flat_map ps_segment h).

(* RadioText: groups 2A carry four of 64 characters, groups 2B two of 32 *)
Record rt_part := mkPart { p_flag : bool; p_version : Version; p_pos : N; p_chars : list N }.
Definition rt_segment (x : Group * N) : list rt_part :=
  let '(g, w) := x in
  if carries 2 g w then
    let n := blk_data (g_b2 g) mod 16 in
    let flag := N.testbit (blk_data (g_b2 g)) 4 in
    match gt_version (g_type g) with
    | VA => [mkPart flag VA (4 * n) [hi (blk_data (g_b3 g)); lo (blk_data (g_b3 g));
                                     hi (blk_data (g_b4 g)); lo (blk_data (g_b4 g))]]
    | _ => [mkPart flag VB (2 * n) [hi (blk_data (g_b4 g)); lo (blk_data (g_b4 g))]]
    end
  else [].
Fixpoint place (pos : N) (l : list N) : writes :=
  match l with
  | [] => []
  | b :: r => (pos, b) :: place (pos + 1) r
  end.
Definition part_writes (l : list rt_part) : writes := flat_map (fun p => place (p_pos p) (p_chars p)) l.
Definition rt_size (v : Version) : N := match v with VA => 64 | _ => 32 end.

(* The station does not change between 2A and 2B groups within a message *)
Definition steady (l : list rt_part) : Prop :=
  forall a x y b, l = a ++ x :: y :: b -> p_flag x = p_flag y -> p_version x = p_version y.
(* All parts have A/B flag f and come in groups of version v *)
Definition uniform (f : bool) (v : Version) (l : list rt_part) : Prop :=
  Forall (fun q => p_flag q = f /\ p_version q = v) l.

(* p is a part of this message *)
Definition is_part (v : Version) (message : list N) (p : rt_part) : Prop :=
  p_version p = v /\ p_chars p <> [] /\
  forall i b, nth_error (p_chars p) i = Some b -> nth_error message (N.to_nat (p_pos p) + i) = Some b.
(* t is the text of a message: what is before the end mark, or all of it *)
Definition text_of_message (message t : list N) : Prop :=
  ~ In end_of_text t /\ (t = message \/ exists r, message = t ++ end_of_text :: r).

(* The latest parts, all with the same A/B flag, are a complete message with text s *)
Definition finished (ps : list rt_part) (s : bytes) : Prop :=
  exists earlier msg v l f, ps = earlier ++ msg /\ uniform f v msg /\
    complete_text (rt_size v) (part_writes msg) l /\ trimmed (rds_text l) s.
(* The latest parts, all with the same A/B flag, are the beginning of a message, with text s, that has
   no end mark *)
Definition unfinished (ps : list rt_part) (s : bytes) : Prop :=
  exists earlier msg v l f, ps = earlier ++ msg /\ uniform f v msg /\
    gapless (part_writes msg) l /\ 1 < N.of_nat (length l) /\ ~ In end_of_text l /\ trimmed (rds_text l) s.
(* Text s may be shown after the parts ps: as a complete message, or as a message without an end that
   is followed by the first part of the next message and had occurred before, again followed by the
   first part of a message.  (The second occurrence is not needed if the text is empty.) *)
Definition rt_shown (ps : list rt_part) (s : bytes) : Prop :=
  finished ps s \/
  exists before q, ps = before ++ [q] /\ p_pos q = 0 /\ unfinished before s /\
    (s = [] \/ exists b1 q1 b2, before = b1 ++ q1 :: b2 /\ p_pos q1 = 0 /\ unfinished b1 s).
(* The same for text s, without asking for an earlier occurrence *)
Definition rt_made_of (ps : list rt_part) (s : bytes) : Prop :=
  finished ps s \/ exists before q, ps = before ++ [q] /\ p_pos q = 0 /\ unfinished before s.

(* Open data applications: a group 3A announces that groups of a certain type carry an application *)
(* The type in the last five bits of block 2: its number, and 0 for version A *)
Definition announced_in (b2 : N) : GroupType := mkGroupType (b2 / 2 mod 16) (if b2 mod 2 =? 0 then VA else VB).
Definition announcement (x : Group * N) : list (GroupType * N) :=
  let '(g, w) := x in
  if carries 3 g w then
    match gt_version (g_type g) with
    | VA => [(announced_in (blk_data (g_b2 g)), blk_data (g_b4 g))]
    | _ => []
    end
  else [].

(* No group of k has a type that was announced, in all, for RadioText Plus *)
Definition no_plus (all k : list (Group * N)) : Prop :=
  forall g, In (g, 0) k -> g_has_type g = true -> ~ In (g_type g, 0x4BD7) (flat_map announcement all).

(* Programme type name: groups 10A carry four of the eight characters *)
Definition pn_segment (x : Group * N) : list rt_part :=
  let '(g, w) := x in
  if carries 10 g w then
    match gt_version (g_type g) with
    | VA => [mkPart (N.testbit (blk_data (g_b2 g)) 4) VA (4 * (blk_data (g_b2 g) mod 2))
               [hi (blk_data (g_b3 g)); lo (blk_data (g_b3 g)); hi (blk_data (g_b4 g)); lo (blk_data (g_b4 g))]]
    | _ => []
    end
  else [].

(* Long programme service name: groups 15A carry four of 32 bytes of UTF-8, two in block 3 and two in
   block 4.  Each of the two blocks counts if it was received. *)
Definition long_segment (x : Group * N) : writes :=
  let '(g, w) := x in
  if (w =? 0) && g_has_type g && (gt_number (g_type g) =? 15) && Version_eqb (gt_version (g_type g)) VA then
    let n := 4 * (blk_data (g_b2 g) mod 8) in
    (if blk_is_received (g_b3 g) then [(n, hi (blk_data (g_b3 g))); (n + 1, lo (blk_data (g_b3 g)))] else []) ++
    (if blk_is_received (g_b4 g) then [(n + 2, hi (blk_data (g_b4 g))); (n + 3, lo (blk_data (g_b4 g)))] else [])
  else [].
(* No group announces an application in groups of type t *)
Definition not_announced (t : GroupType) (h : list (Group * N)) : Prop :=
  forall a, ~ In (t, a) (flat_map announcement h).
