(* What the fields of groups of types 0, 1, 14 and 15 mean (IEC 62106). *)
From Verif.Model Require Import Base.
From Verif.Spec Require Import Numerals JsonText Session.

(* Decoder identification: what the bit says that comes with the name segments 0 to 3 *)
Definition di_names : list string := ["dynamic_pty"; "compressed"; "artificial_head"; "stereo"]%string.

(* The countries, by their codes of ISO 3166, with the extended country codes and the first digits of PI codes
   (1 to F) that stand for them; "--" is said where a pair stands for none *)
Definition countries : list (string * list (N * N)) :=
  [("ad", [(0xE0, 3)]); ("ae", [(0xF2, 13)]); ("af", [(0xF0, 10)]); ("ag", [(0xA2, 2)]); ("ai", [(0xA2, 1)]);
   ("al", [(0xE0, 9)]); ("am", [(0xE4, 10)]); ("an", [(0xA2, 13)]); ("ao", [(0xD0, 6)]); ("ar", [(0xA2, 10)]);
   ("at", [(0xE0, 10)]);
   ("au", [(0xF0, 1); (0xF0, 2); (0xF0, 3); (0xF0, 4); (0xF0, 5); (0xF0, 6); (0xF0, 7); (0xF0, 8)]);
   ("aw", [(0xA4, 3)]); ("az", [(0xE3, 11)]); ("ba", [(0xE4, 15)]); ("bb", [(0xA2, 5)]); ("bd", [(0xF1, 3)]);
   ("be", [(0xE0, 6)]); ("bf", [(0xD0, 11)]); ("bg", [(0xD1, 15); (0xE1, 8)]); ("bh", [(0xF0, 14)]);
   ("bi", [(0xD1, 9)]); ("bj", [(0xD0, 14)]); ("bm", [(0xA2, 12)]); ("bn", [(0xF1, 11)]); ("bo", [(0xA3, 1)]);
   ("br", [(0xA2, 11)]); ("bs", [(0xA2, 15)]); ("bt", [(0xF1, 2)]); ("bw", [(0xD1, 11)]); ("by", [(0xE3, 15)]);
   ("bz", [(0xA2, 6)]); ("ca", [(0xA1, 11); (0xA1, 12); (0xA1, 13); (0xA1, 14)]); ("cf", [(0xD0, 2)]);
   ("cg", [(0xD0, 12)]); ("ch", [(0xE1, 4)]); ("ci", [(0xD2, 12)]); ("cl", [(0xA3, 12)]); ("cm", [(0xD0, 1)]);
   ("cn", [(0xF0, 12)]); ("co", [(0xA3, 2)]); ("cr", [(0xA2, 8)]); ("cu", [(0xA2, 9)]); ("cv", [(0xD1, 6)]);
   ("cy", [(0xE1, 2)]); ("cz", [(0xE2, 2)]); ("de", [(0xE0, 1); (0xE0, 13)]); ("dj", [(0xD0, 3)]);
   ("dk", [(0xE1, 9)]); ("dm", [(0xA3, 10)]); ("do", [(0xA3, 11)]); ("dz", [(0xE0, 2)]); ("ec", [(0xA2, 3)]);
   ("ee", [(0xE4, 2)]); ("eg", [(0xE0, 15)]); ("eh", [(0xD3, 3)]); ("es", [(0xE2, 14)]); ("et", [(0xD1, 14)]);
   ("fi", [(0xE1, 6)]); ("fj", [(0xF1, 5)]); ("fk", [(0xA2, 4)]); ("fm", [(0xF3, 14)]); ("fr", [(0xE1, 15)]);
   ("ga", [(0xD0, 8)]); ("gb", [(0xE1, 12)]); ("gd", [(0xA3, 13)]); ("ge", [(0xE4, 12)]); ("gf", [(0xA3, 5)]);
   ("gh", [(0xD1, 3)]); ("gi", [(0xE1, 10)]); ("gl", [(0xA1, 15)]); ("gm", [(0xD1, 8)]); ("gn", [(0xD0, 9)]);
   ("gp", [(0xA2, 14)]); ("gq", [(0xD0, 7)]); ("gr", [(0xE1, 1)]); ("gt", [(0xA4, 1)]); ("gw", [(0xD2, 10)]);
   ("gy", [(0xA3, 15)]); ("hk", [(0xF1, 15)]); ("hn", [(0xA4, 2)]); ("hr", [(0xE3, 12)]); ("ht", [(0xA4, 13)]);
   ("hu", [(0xE0, 11)]); ("id", [(0xF2, 12)]); ("ie", [(0xE3, 2)]); ("il", [(0xE0, 4)]); ("in", [(0xF2, 5)]);
   ("iq", [(0xE1, 11)]); ("ir", [(0xF1, 8)]); ("is", [(0xE2, 10)]); ("it", [(0xE0, 5)]); ("jm", [(0xA3, 3)]);
   ("jo", [(0xE1, 5)]); ("jp", [(0xF2, 9)]); ("ke", [(0xD2, 6)]); ("kg", [(0xE4, 3)]); ("kh", [(0xF2, 3)]);
   ("ki", [(0xF1, 1)]); ("km", [(0xD1, 12)]); ("kn", [(0xA4, 10)]); ("kp", [(0xF0, 13)]); ("kr", [(0xF1, 14)]);
   ("ks", [(0xE4, 7)]); ("kw", [(0xF2, 1)]); ("ky", [(0xA2, 7)]); ("kz", [(0xE3, 13)]); ("la", [(0xF3, 1)]);
   ("lb", [(0xE3, 10)]); ("lc", [(0xA4, 11)]); ("li", [(0xE2, 9)]); ("lk", [(0xF1, 12)]); ("lr", [(0xD1, 2)]);
   ("ls", [(0xD3, 6)]); ("lt", [(0xE2, 12)]); ("lu", [(0xE1, 7)]); ("lv", [(0xE3, 9)]); ("ly", [(0xE1, 13)]);
   ("ma", [(0xE2, 1)]); ("mc", [(0xE2, 11)]); ("md", [(0xE4, 1)]); ("me", [(0xE3, 1)]); ("mg", [(0xD0, 4)]);
   ("mk", [(0xE3, 4)]); ("ml", [(0xD0, 5)]); ("mm", [(0xF0, 11)]); ("mn", [(0xF3, 15)]); ("mo", [(0xF2, 6)]);
   ("mq", [(0xA3, 4)]); ("mr", [(0xD1, 4)]); ("ms", [(0xA4, 5)]); ("mt", [(0xE0, 12)]); ("mu", [(0xD3, 10)]);
   ("mv", [(0xF2, 11)]); ("mw", [(0xD0, 15)]); ("mx", [(0xA5, 11); (0xA5, 13); (0xA5, 14); (0xA5, 15)]);
   ("my", [(0xF0, 15)]); ("mz", [(0xD2, 3)]); ("na", [(0xD1, 1)]); ("ne", [(0xD2, 8)]); ("ni", [(0xA3, 7)]);
   ("nl", [(0xE3, 8)]); ("no", [(0xE2, 15)]); ("np", [(0xF2, 14)]); ("nr", [(0xF1, 7)]); ("nz", [(0xF1, 9)]);
   ("om", [(0xF1, 6)]); ("pa", [(0xA3, 9)]); ("pe", [(0xA4, 7)]); ("pg", [(0xF3, 9)]); ("ph", [(0xF2, 8)]);
   ("pk", [(0xF1, 4)]); ("pl", [(0xE2, 3)]); ("pm", [(0xA6, 15)]); ("ps", [(0xE0, 8)]); ("pt", [(0xE4, 8)]);
   ("py", [(0xA3, 6)]); ("qa", [(0xF2, 2)]); ("ro", [(0xE1, 14)]); ("rs", [(0xE2, 13)]); ("ru", [(0xE0, 7)]);
   ("rw", [(0xD3, 5)]); ("sa", [(0xF0, 9)]); ("sb", [(0xF1, 10)]); ("sc", [(0xD3, 8)]); ("sd", [(0xD3, 12)]);
   ("se", [(0xE3, 14)]); ("sg", [(0xF2, 10)]); ("si", [(0xE4, 9)]); ("sk", [(0xE2, 5)]); ("sl", [(0xD2, 1)]);
   ("sm", [(0xE1, 3)]); ("sn", [(0xD1, 7)]); ("so", [(0xD2, 7)]); ("sr", [(0xA4, 8)]); ("st", [(0xD1, 5)]);
   ("sv", [(0xA4, 12)]); ("sy", [(0xE2, 6)]); ("sz", [(0xD2, 5)]); ("tc", [(0xA3, 14)]); ("td", [(0xD2, 9)]);
   ("tg", [(0xD0, 13)]); ("th", [(0xF3, 2)]); ("tn", [(0xE2, 7)]); ("to", [(0xF3, 3)]); ("tr", [(0xE3, 3)]);
   ("tt", [(0xA4, 6)]); ("tw", [(0xF1, 13)]); ("tz", [(0xD1, 13); (0xD2, 13)]); ("ua", [(0xE4, 6)]);
   ("ug", [(0xD2, 4)]);
   ("us", [(0xA0, 1); (0xA0, 2); (0xA0, 3); (0xA0, 4); (0xA0, 5); (0xA0, 6); (0xA0, 7); (0xA0, 8); (0xA0, 9); (0xA0, 10); (0xA0, 11); (0xA0, 13); (0xA0, 14)]);
   ("uy", [(0xA4, 9)]); ("va", [(0xE2, 4)]); ("vc", [(0xA5, 12)]); ("ve", [(0xA4, 14)]); ("vn", [(0xF2, 7)]);
   ("vu", [(0xF2, 15)]); ("ws", [(0xF2, 4)]); ("ye", [(0xF3, 11)]); ("za", [(0xD0, 10)]); ("zm", [(0xD2, 14)]);
   ("zr", [(0xD2, 11)]); ("zw", [(0xD2, 2)])]%string.
Definition country_name (digit ecc : N) : bytes :=
  match find (fun x => existsb (fun y => (fst y =? ecc) && (snd y =? digit)) (snd x)) countries with
  | Some x => bs (fst x)
  | None => bs "--"
  end.
(* Countries of Europe, as in the table of the standard (extended country codes E0 to E4) *)
Definition european : list (N * list string) :=
  [(0xE0, ["de"; "dz"; "ad"; "il"; "it"; "be"; "ru"; "ps"; "al"; "at"; "hu"; "mt"; "de"; "--"; "eg"]);
   (0xE1, ["gr"; "cy"; "sm"; "ch"; "jo"; "fi"; "lu"; "bg"; "dk"; "gi"; "iq"; "gb"; "ly"; "ro"; "fr"]);
   (0xE2, ["ma"; "cz"; "pl"; "va"; "sk"; "sy"; "tn"; "--"; "li"; "is"; "mc"; "lt"; "rs"; "es"; "no"]);
   (0xE3, ["me"; "ie"; "tr"; "mk"; "--"; "--"; "--"; "nl"; "lv"; "lb"; "az"; "hr"; "kz"; "se"; "by"]);
   (0xE4, ["md"; "ee"; "kg"; "--"; "--"; "ua"; "ks"; "pt"; "si"; "am"; "--"; "ge"; "--"; "--"; "ba"])]%string.

(* Languages: the codes 00 to 2B, 40 and 45 to 7F; the others mean none *)
Definition languages_00 : list string :=
  ["Unknown"; "Albanian"; "Breton"; "Catalan"; "Croatian"; "Welsh"; "Czech"; "Danish";
   "German"; "English"; "Spanish"; "Esperanto"; "Estonian"; "Basque"; "Faroese"; "French";
   "Frisian"; "Irish"; "Gaelic"; "Galician"; "Icelandic"; "Italian"; "Lappish"; "Latin";
   "Latvian"; "Luxembourgian"; "Lithuanian"; "Hungarian"; "Maltese"; "Dutch"; "Norwegian"; "Occitan";
   "Polish"; "Portuguese"; "Romanian"; "Romansh"; "Serbian"; "Slovak"; "Slovene"; "Finnish";
   "Swedish"; "Turkish"; "Flemish"; "Walloon"]%string.
Definition languages_45 : list string :=
  ["Zulu"; "Vietnamese"; "Uzbek"; "Urdu"; "Ukrainian"; "Thai"; "Telugu"; "Tatar";
   "Tamil"; "Tadzhik"; "Swahili"; "SrananTongo"; "Somali"; "Sinhalese"; "Shona"; "Serbo-Croat";
   "Ruthenian"; "Russian"; "Quechua"; "Pushtu"; "Punjabi"; "Persian"; "Papamiento"; "Oriya";
   "Nepali"; "Ndebele"; "Marathi"; "Moldovian"; "Malaysian"; "Malagasay"; "Macedonian"; "Laotian";
   "Korean"; "Khmer"; "Kazakh"; "Kannada"; "Japanese"; "Indonesian"; "Hindi"; "Hebrew";
   "Hausa"; "Gurani"; "Gujurati"; "Greek"; "Georgian"; "Fulani"; "Dari"; "Churash";
   "Chinese"; "Burmese"; "Bulgarian"; "Bengali"; "Belorussian"; "Bambora"; "Azerbaijan"; "Assamese";
   "Armenian"; "Arabic"; "Amharic"]%string.
Definition language_name (code : N) : bytes :=
  if code <=? 0x2B then bs (nth (N.to_nat code) languages_00 EmptyString)
  else if code =? 0x40 then bs "Background"
  else if code <? 0x45 then []
  else bs (nth (N.to_nat (code - 0x45)) languages_45 EmptyString).

(* Text t is "0x" and the number a in hexadecimal, with n digits *)
Definition hex_number (n : nat) (t : bytes) (a : N) : Prop := exists d, t = bs "0x" ++ d /\ length d = n /\ numeral 16 d = Some a.
(* The line has a number at the path, and it is n *)
Definition says_n (line : bytes) (path : list string) (n : N) : Prop := exists t, says line path (VNum t) /\ numeral 10 t = Some n.
(* The line has a hexadecimal number at the path *)
Definition says_x (digits : nat) (line : bytes) (path : list string) (n : N) : Prop := exists t, says line path (VStr t) /\ hex_number digits t n.
(* If b the line has this at the path, and otherwise nothing *)
Definition if_value (b : bool) (line : bytes) (path : list string) (v : jval) : Prop := line_at path line = if b then Some v else None.
Definition if_n (b : bool) (line : bytes) (path : list string) (n : N) : Prop := if b then says_n line path n else line_at path line = None.
Definition if_x (b : bool) (digits : nat) (line : bytes) (path : list string) (n : N) : Prop := if b then says_x digits line path n else line_at path line = None.

(* Names of some open data applications *)
Definition app_names : list (N * string) :=
  [(0x0093, "Cross referencing DAB within RDS"); (0x4BD7, "RadioText+ (RT+)"); (0x4BD8, "RadioText Plus / RT+ for eRT");
   (0x6552, "Enhanced RadioText (eRT)"); (0xCD46, "RDS-TMC: ALERT-C"); (0xCD47, "RDS-TMC: ALERT-C")]%string.
(* Areas for which traffic messages are sent, by the four bits that announce them *)
Definition scope_names (bits : N) : list jval :=
  (if N.testbit bits 3 then [VStr (bs "inter-road")] else []) ++ (if N.testbit bits 2 then [VStr (bs "national")] else []) ++
  (if N.testbit bits 1 then [VStr (bs "regional")] else []) ++ (if N.testbit bits 0 then [VStr (bs "urban")] else []).
(* The text of four or two characters, up to the end mark if there is one *)
Fixpoint up_to_end (l : list N) : list N :=
  match l with
  | [] => []
  | b :: r => if b =? 0x0D then [b] else b :: up_to_end r
  end.
(* Text t is the numbers in two hexadecimal digits each, with blanks between them *)
Definition hex_digits (n : nat) (t : bytes) (a : N) : Prop := length t = n /\ numeral 16 t = Some a.
Fixpoint hex_bytes (l : list N) (t : bytes) : Prop :=
  match l with
  | [] => t = []
  | [b] => hex_digits 2 t b
  | b :: r => exists d t', t = d ++ [32] ++ t' /\ hex_digits 2 d b /\ hex_bytes r t'
  end.
(* The contents of a group: five bits of block 2 and blocks 3 and 4, dashes for a block not received *)
Definition hex_block (received : bool) (t : bytes) (a : N) : Prop := if received then hex_digits 4 t a else t = bs "----".
Definition hex_group (b2 : N) (r3 : bool) (b3 : N) (r4 : bool) (b4 : N) (t : bytes) : Prop :=
  exists t2 t3 t4, t = t2 ++ [32] ++ t3 ++ [32] ++ t4 /\ hex_digits 2 t2 (b2 mod 32) /\ hex_block r3 t3 b3 /\ hex_block r4 t4 b4.
(* The line has these numbers at the path *)
Definition says_list (line : bytes) (path : list string) (l : list N) : Prop :=
  exists ts, says line path (VArr (map VNum ts)) /\ Forall2 (fun t n => numeral 10 t = Some n) ts l.
