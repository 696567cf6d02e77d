(* Text tables of src/tables.cc and src/text/rdsstring.cc.  Generated from the source text (the
   string literals and codes are copied; nothing is computed). *)
From Verif.Model Require Import Base Util.

(* Element i of a constant array; the callers' bounds make the default unreachable. *)
Definition tab (l : list string) (i : N) : bytes := bs (nth (N.to_nat i) l EmptyString).

Fixpoint find_code {A : Type} (k : N) (l : list (N * A)) : option A :=
  match l with
  | [] => None
  | (k', v) :: r => if k =? k' then Some v else find_code k r
  end.

(* src/tables.cc:30-38; std::array<std::string, 64> with 32 initialisers *)
Definition pty_names : list string :=
  ["No PTY"%string; "News"%string; "Current affairs"%string; "Information"%string;
   "Sport"%string; "Education"%string; "Drama"%string; "Culture"%string;
   "Science"%string; "Varied"%string; "Pop music"%string; "Rock music"%string;
   "Easy listening"%string; "Light classical"%string; "Serious classical"%string; "Other music"%string;
   "Weather"%string; "Finance"%string; "Children's programmes"%string; "Social affairs"%string;
   "Religion"%string; "Phone-in"%string; "Travel"%string; "Leisure"%string;
   "Jazz music"%string; "Country music"%string; "National music"%string; "Oldies music"%string;
   "Folk music"%string; "Documentary"%string; "Alarm test"%string; "Alarm"%string;
   ""%string; ""%string; ""%string; ""%string;
   ""%string; ""%string; ""%string; ""%string;
   ""%string; ""%string; ""%string; ""%string;
   ""%string; ""%string; ""%string; ""%string;
   ""%string; ""%string; ""%string; ""%string;
   ""%string; ""%string; ""%string; ""%string;
   ""%string; ""%string; ""%string; ""%string;
   ""%string; ""%string; ""%string; ""%string].

(* src/tables.cc:28-42 *)
Definition getPTYNameString (pty : N) : bytes := if pty <? 64 then tab pty_names pty else bs "Unknown".

(* src/tables.cc:48-56; 64 elements, 32 initialisers *)
Definition pty_names_rbds : list string :=
  ["No PTY"%string; "News"%string; "Information"%string; "Sports"%string;
   "Talk"%string; "Rock"%string; "Classic rock"%string; "Adult hits"%string;
   "Soft rock"%string; "Top 40"%string; "Country"%string; "Oldies"%string;
   "Soft"%string; "Nostalgia"%string; "Jazz"%string; "Classical"%string;
   "Rhythm and blues"%string; "Soft rhythm and blues"%string; "Language"%string; "Religious music"%string;
   "Religious talk"%string; "Personality"%string; "Public"%string; "College"%string;
   "Spanish talk"%string; "Spanish music"%string; "Hip hop"%string; ""%string;
   ""%string; "Weather"%string; "Emergency test"%string; "Emergency"%string;
   ""%string; ""%string; ""%string; ""%string;
   ""%string; ""%string; ""%string; ""%string;
   ""%string; ""%string; ""%string; ""%string;
   ""%string; ""%string; ""%string; ""%string;
   ""%string; ""%string; ""%string; ""%string;
   ""%string; ""%string; ""%string; ""%string;
   ""%string; ""%string; ""%string; ""%string;
   ""%string; ""%string; ""%string; ""%string].

(* src/tables.cc:46-60 *)
Definition getPTYNameStringRBDS (pty : N) : bytes :=
  if pty <? 64 then tab pty_names_rbds pty else bs "Unknown".

(* src/tables.cc:66-107 *)
Definition country_codes : list (N * list string) :=
  [(0xA0, ["us"%string; "us"%string; "us"%string; "us"%string; "us"%string; "us"%string; "us"%string; "us"%string; "us"%string; "us"%string; "us"%string; "--"%string; "us"%string; "us"%string; "--"%string]);
   (0xA1, ["--"%string; "--"%string; "--"%string; "--"%string; "--"%string; "--"%string; "--"%string; "--"%string; "--"%string; "--"%string; "ca"%string; "ca"%string; "ca"%string; "ca"%string; "gl"%string]);
   (0xA2, ["ai"%string; "ag"%string; "ec"%string; "fk"%string; "bb"%string; "bz"%string; "ky"%string; "cr"%string; "cu"%string; "ar"%string; "br"%string; "bm"%string; "an"%string; "gp"%string; "bs"%string]);
   (0xA3, ["bo"%string; "co"%string; "jm"%string; "mq"%string; "gf"%string; "py"%string; "ni"%string; "--"%string; "pa"%string; "dm"%string; "do"%string; "cl"%string; "gd"%string; "tc"%string; "gy"%string]);
   (0xA4, ["gt"%string; "hn"%string; "aw"%string; "--"%string; "ms"%string; "tt"%string; "pe"%string; "sr"%string; "uy"%string; "kn"%string; "lc"%string; "sv"%string; "ht"%string; "ve"%string; "--"%string]);
   (0xA5, ["--"%string; "--"%string; "--"%string; "--"%string; "--"%string; "--"%string; "--"%string; "--"%string; "--"%string; "--"%string; "mx"%string; "vc"%string; "mx"%string; "mx"%string; "mx"%string]);
   (0xA6, ["--"%string; "--"%string; "--"%string; "--"%string; "--"%string; "--"%string; "--"%string; "--"%string; "--"%string; "--"%string; "--"%string; "--"%string; "--"%string; "--"%string; "pm"%string]);
   (0xD0, ["cm"%string; "cf"%string; "dj"%string; "mg"%string; "ml"%string; "ao"%string; "gq"%string; "ga"%string; "gn"%string; "za"%string; "bf"%string; "cg"%string; "tg"%string; "bj"%string; "mw"%string]);
   (0xD1, ["na"%string; "lr"%string; "gh"%string; "mr"%string; "st"%string; "cv"%string; "sn"%string; "gm"%string; "bi"%string; "--"%string; "bw"%string; "km"%string; "tz"%string; "et"%string; "bg"%string]);
   (0xD2, ["sl"%string; "zw"%string; "mz"%string; "ug"%string; "sz"%string; "ke"%string; "so"%string; "ne"%string; "td"%string; "gw"%string; "zr"%string; "ci"%string; "tz"%string; "zm"%string; "--"%string]);
   (0xD3, ["--"%string; "--"%string; "eh"%string; "--"%string; "rw"%string; "ls"%string; "--"%string; "sc"%string; "--"%string; "mu"%string; "--"%string; "sd"%string; "--"%string; "--"%string; "--"%string]);
   (0xE0, ["de"%string; "dz"%string; "ad"%string; "il"%string; "it"%string; "be"%string; "ru"%string; "ps"%string; "al"%string; "at"%string; "hu"%string; "mt"%string; "de"%string; "--"%string; "eg"%string]);
   (0xE1, ["gr"%string; "cy"%string; "sm"%string; "ch"%string; "jo"%string; "fi"%string; "lu"%string; "bg"%string; "dk"%string; "gi"%string; "iq"%string; "gb"%string; "ly"%string; "ro"%string; "fr"%string]);
   (0xE2, ["ma"%string; "cz"%string; "pl"%string; "va"%string; "sk"%string; "sy"%string; "tn"%string; "--"%string; "li"%string; "is"%string; "mc"%string; "lt"%string; "rs"%string; "es"%string; "no"%string]);
   (0xE3, ["me"%string; "ie"%string; "tr"%string; "mk"%string; "--"%string; "--"%string; "--"%string; "nl"%string; "lv"%string; "lb"%string; "az"%string; "hr"%string; "kz"%string; "se"%string; "by"%string]);
   (0xE4, ["md"%string; "ee"%string; "kg"%string; "--"%string; "--"%string; "ua"%string; "ks"%string; "pt"%string; "si"%string; "am"%string; "--"%string; "ge"%string; "--"%string; "--"%string; "ba"%string]);
   (0xF0, ["au"%string; "au"%string; "au"%string; "au"%string; "au"%string; "au"%string; "au"%string; "au"%string; "sa"%string; "af"%string; "mm"%string; "cn"%string; "kp"%string; "bh"%string; "my"%string]);
   (0xF1, ["ki"%string; "bt"%string; "bd"%string; "pk"%string; "fj"%string; "om"%string; "nr"%string; "ir"%string; "nz"%string; "sb"%string; "bn"%string; "lk"%string; "tw"%string; "kr"%string; "hk"%string]);
   (0xF2, ["kw"%string; "qa"%string; "kh"%string; "ws"%string; "in"%string; "mo"%string; "vn"%string; "ph"%string; "jp"%string; "sg"%string; "mv"%string; "id"%string; "ae"%string; "np"%string; "vu"%string]);
   (0xF3, ["la"%string; "th"%string; "to"%string; "--"%string; "--"%string; "--"%string; "--"%string; "--"%string; "pg"%string; "--"%string; "ye"%string; "--"%string; "--"%string; "fm"%string; "mn"%string])].

(* src/tables.cc:65-112; std::array::at throws std::out_of_range *)
Definition getCountryString (cc ecc : N) : res bytes :=
  match find_code ecc country_codes with
  | Some row =>
      if 0 <? cc then
        match nth_error row (N.to_nat (cc - 1)) with
        | Some s => Ok (bs s)
        | None => Throw "out_of_range"
        end
      else Ok (bs "--")
  | None => Ok (bs "--")
  end.

(* src/tables.cc:118-150 *)
Definition languages : list string :=
  ["Unknown"%string; "Albanian"%string; "Breton"%string; "Catalan"%string;
   "Croatian"%string; "Welsh"%string; "Czech"%string; "Danish"%string;
   "German"%string; "English"%string; "Spanish"%string; "Esperanto"%string;
   "Estonian"%string; "Basque"%string; "Faroese"%string; "French"%string;
   "Frisian"%string; "Irish"%string; "Gaelic"%string; "Galician"%string;
   "Icelandic"%string; "Italian"%string; "Lappish"%string; "Latin"%string;
   "Latvian"%string; "Luxembourgian"%string; "Lithuanian"%string; "Hungarian"%string;
   "Maltese"%string; "Dutch"%string; "Norwegian"%string; "Occitan"%string;
   "Polish"%string; "Portuguese"%string; "Romanian"%string; "Romansh"%string;
   "Serbian"%string; "Slovak"%string; "Slovene"%string; "Finnish"%string;
   "Swedish"%string; "Turkish"%string; "Flemish"%string; "Walloon"%string;
   ""%string; ""%string; ""%string; ""%string;
   ""%string; ""%string; ""%string; ""%string;
   ""%string; ""%string; ""%string; ""%string;
   ""%string; ""%string; ""%string; ""%string;
   ""%string; ""%string; ""%string; ""%string;
   "Background"%string; ""%string; ""%string; ""%string;
   ""%string; "Zulu"%string; "Vietnamese"%string; "Uzbek"%string;
   "Urdu"%string; "Ukrainian"%string; "Thai"%string; "Telugu"%string;
   "Tatar"%string; "Tamil"%string; "Tadzhik"%string; "Swahili"%string;
   "SrananTongo"%string; "Somali"%string; "Sinhalese"%string; "Shona"%string;
   "Serbo-Croat"%string; "Ruthenian"%string; "Russian"%string; "Quechua"%string;
   "Pushtu"%string; "Punjabi"%string; "Persian"%string; "Papamiento"%string;
   "Oriya"%string; "Nepali"%string; "Ndebele"%string; "Marathi"%string;
   "Moldovian"%string; "Malaysian"%string; "Malagasay"%string; "Macedonian"%string;
   "Laotian"%string; "Korean"%string; "Khmer"%string; "Kazakh"%string;
   "Kannada"%string; "Japanese"%string; "Indonesian"%string; "Hindi"%string;
   "Hebrew"%string; "Hausa"%string; "Gurani"%string; "Gujurati"%string;
   "Greek"%string; "Georgian"%string; "Fulani"%string; "Dari"%string;
   "Churash"%string; "Chinese"%string; "Burmese"%string; "Bulgarian"%string;
   "Bengali"%string; "Belorussian"%string; "Bambora"%string; "Azerbaijan"%string;
   "Assamese"%string; "Armenian"%string; "Arabic"%string; "Amharic"%string].

(* src/tables.cc:116-154 *)
Definition getLanguageString (code : N) : bytes := if code <? 128 then tab languages code else [].

(* src/tables.cc:162-227 *)
Definition oda_apps : list (N * string) :=
  [(0x0000, "None"%string); (0x0093, "Cross referencing DAB within RDS"%string); (0x0BCB, "Leisure & Practical Info for Drivers"%string);
   (0x0C24, "ELECTRABEL-DSM 7"%string); (0x0CC1, "Wireless Playground broadcast control signal"%string); (0x0D45, "RDS-TMC: ALERT-C / EN ISO 14819-1"%string);
   (0x0D8B, "ELECTRABEL-DSM 18"%string); (0x0E2C, "ELECTRABEL-DSM 3"%string); (0x0E31, "ELECTRABEL-DSM 13"%string);
   (0x0F87, "ELECTRABEL-DSM 2"%string); (0x125F, "I-FM-RDS for fixed and mobile devices"%string); (0x1BDA, "ELECTRABEL-DSM 1"%string);
   (0x1C5E, "ELECTRABEL-DSM 20"%string); (0x1C68, "ITIS In-vehicle data base"%string); (0x1CB1, "ELECTRABEL-DSM 10"%string);
   (0x1D47, "ELECTRABEL-DSM 4"%string); (0x1DC2, "CITIBUS 4"%string); (0x1DC5, "Encrypted TTI using ALERT-Plus"%string);
   (0x1E8F, "ELECTRABEL-DSM 17"%string); (0x4400, "RDS-Light"%string); (0x4AA1, "RASANT"%string);
   (0x4AB7, "ELECTRABEL-DSM 9"%string); (0x4BA2, "ELECTRABEL-DSM 5"%string); (0x4BD7, "RadioText+ (RT+)"%string);
   (0x4BD8, "RadioText Plus / RT+ for eRT"%string); (0x4C59, "CITIBUS 2"%string); (0x4D87, "Radio Commerce System (RCS)"%string);
   (0x4D95, "ELECTRABEL-DSM 16"%string); (0x4D9A, "ELECTRABEL-DSM 11"%string); (0x50DD, "To warn people in case of disasters or emergency"%string);
   (0x5757, "Personal weather station"%string); (0x6363, "Hybradio RDS-Net(for testing use, only)"%string); (0x6365, "RDS2 – 9 bit AF lists ODA"%string);
   (0x6552, "Enhanced RadioText (eRT)"%string); (0x6A7A, "Warning receiver"%string); (0x7373, "Enhanced early warning system"%string);
   (0xA112, "NL _ Alert system"%string); (0xA911, "Data FM Selective Multipoint Messaging"%string); (0xABCF, "RF Power Monitoring"%string);
   (0xC350, "NRSC Song Title and Artist"%string); (0xC3A1, "Personal Radio Service"%string); (0xC3B0, "iTunes Tagging"%string);
   (0xC3C3, "NAVTEQ Traffic Plus"%string); (0xC4D4, "eEAS"%string); (0xC549, "Smart Grid Broadcast Channel"%string);
   (0xC563, "ID Logic"%string); (0xC6A7, "Veil Enabled Interactive Device"%string); (0xC737, "Utility Message Channel (UMC)"%string);
   (0xCB73, "CITIBUS 1"%string); (0xCB97, "ELECTRABEL-DSM 14"%string); (0xCC21, "CITIBUS 3"%string);
   (0xCD46, "RDS-TMC: ALERT-C"%string); (0xCD47, "RDS-TMC: ALERT-C"%string); (0xCD9E, "ELECTRABEL-DSM 8"%string);
   (0xCE6B, "Encrypted TTI using ALERT-Plus"%string); (0xE123, "APS Gateway"%string); (0xE1C1, "Action code"%string);
   (0xE319, "ELECTRABEL-DSM 12"%string); (0xE411, "Beacon downlink"%string); (0xE440, "ELECTRABEL-DSM 15"%string);
   (0xE4A6, "ELECTRABEL-DSM 19"%string); (0xE5D7, "ELECTRABEL-DSM 6"%string); (0xE911, "EAS open protocol"%string);
   (0xFF7F, "RFT: Station logo"%string); (0xFF80, "RFT+ (work title)"%string)].

(* src/tables.cc:160-231 *)
Definition getAppNameString (aid : N) : bytes :=
  match find_code aid oda_apps with Some s => bs s | None => bs "(Unknown)" end.

(* src/tables.cc:237-259; std::array<std::string, 66> with 64 initialisers *)
Definition content_type_names : list string :=
  ["dummy_class"%string; "item.title"%string; "item.album"%string; "item.tracknumber"%string;
   "item.artist"%string; "item.composition"%string; "item.movement"%string; "item.conductor"%string;
   "item.composer"%string; "item.band"%string; "item.comment"%string; "item.genre"%string;
   "info.news"%string; "info.news.local"%string; "info.stockmarket"%string; "info.sport"%string;
   "info.lottery"%string; "info.horoscope"%string; "info.daily_diversion"%string; "info.health"%string;
   "info.event"%string; "info.scene"%string; "info.cinema"%string; "info.tv"%string;
   "info.date_time"%string; "info.weather"%string; "info.traffic"%string; "info.alarm"%string;
   "info.advertisement"%string; "info.url"%string; "info.other"%string; "stationname.short"%string;
   "stationname.long"%string; "programme.now"%string; "programme.next"%string; "programme.part"%string;
   "programme.host"%string; "programme.editorial_staff"%string; "programme.frequency"%string; "programme.homepage"%string;
   "programme.subchannel"%string; "phone.hotline"%string; "phone.studio"%string; "phone.other"%string;
   "sms.studio"%string; "sms.other"%string; "email.hotline"%string; "email.studio"%string;
   "email.other"%string; "mms.other"%string; "chat"%string; "chat.centre"%string;
   "vote.question"%string; "vote.centre"%string; "unknown"%string; "unknown"%string;
   "unknown"%string; "unknown"%string; "unknown"%string; "place"%string;
   "appointment"%string; "identifier"%string; "purchase"%string; "get_data"%string;
   ""%string; ""%string].

(* src/tables.cc:235-263 *)
Definition getRTPlusContentTypeString (content_type : N) : bytes :=
  if content_type <? 66 then tab content_type_names content_type else bs "unknown".

(* src/tables.cc:268-269 *)
Definition di_codes : list string :=
  ["dynamic_pty"%string; "compressed"%string; "artificial_head"%string; "stereo"%string].

(* src/tables.cc:267-272; used as an object key *)
Definition getDICodeString (di : N) : string :=
  if di <? 4 then nth (N.to_nat di) di_codes EmptyString else "unknown"%string.

(* src/tables.cc:278-296 *)
Definition three_letter_codes : list (N * string) :=
  [(0x99A5, "KBW"%string); (0x9992, "KOY"%string); (0x9978, "WHO"%string);
   (0x99A6, "KCY"%string); (0x9993, "KPQ"%string); (0x999C, "WHP"%string);
   (0x9990, "KDB"%string); (0x9964, "KQV"%string); (0x999D, "WIL"%string);
   (0x99A7, "KDF"%string); (0x9994, "KSD"%string); (0x997A, "WIP"%string);
   (0x9950, "KEX"%string); (0x9965, "KSL"%string); (0x99B3, "WIS"%string);
   (0x9951, "KFH"%string); (0x9966, "KUJ"%string); (0x997B, "WJR"%string);
   (0x9952, "KFI"%string); (0x9995, "KUT"%string); (0x99B4, "WJW"%string);
   (0x9953, "KGA"%string); (0x9967, "KVI"%string); (0x99B5, "WJZ"%string);
   (0x9991, "KGB"%string); (0x9968, "KWG"%string); (0x997C, "WKY"%string);
   (0x9954, "KGO"%string); (0x9996, "KXL"%string); (0x997D, "WLS"%string);
   (0x9955, "KGU"%string); (0x9997, "KXO"%string); (0x997E, "WLW"%string);
   (0x9956, "KGW"%string); (0x996B, "KYW"%string); (0x999E, "WMC"%string);
   (0x9957, "KGY"%string); (0x9999, "WBT"%string); (0x999F, "WMT"%string);
   (0x99AA, "KHQ"%string); (0x996D, "WBZ"%string); (0x9981, "WOC"%string);
   (0x9958, "KID"%string); (0x996E, "WDZ"%string); (0x99A0, "WOI"%string);
   (0x9959, "KIT"%string); (0x996F, "WEW"%string); (0x9983, "WOL"%string);
   (0x995A, "KJR"%string); (0x999A, "WGH"%string); (0x9984, "WOR"%string);
   (0x995B, "KLO"%string); (0x9971, "WGL"%string); (0x99A1, "WOW"%string);
   (0x995C, "KLZ"%string); (0x9972, "WGN"%string); (0x99B9, "WRC"%string);
   (0x995D, "KMA"%string); (0x9973, "WGR"%string); (0x99A2, "WRR"%string);
   (0x995E, "KMJ"%string); (0x999B, "WGY"%string); (0x99A3, "WSB"%string);
   (0x995F, "KNX"%string); (0x9975, "WHA"%string); (0x99A4, "WSM"%string);
   (0x9960, "KOA"%string); (0x9976, "WHB"%string); (0x9988, "WWJ"%string);
   (0x99AB, "KOB"%string); (0x9977, "WHK"%string); (0x9989, "WWL"%string)].

(* src/tables.cc:299-306 *)
Definition linked_station_codes : list (N * string) :=
  [(0xB001, "NPR-1"%string); (0xB002, "CBC English - Radio One"%string); (0xB003, "CBC English - Radio Two"%string);
   (0xB004, "CBC French => Radio-Canada - Première Chaîne"%string); (0xB005, "CBC French => Radio-Canada - Espace Musique"%string); (0xB006, "CBC"%string);
   (0xB007, "CBC"%string); (0xB008, "CBC"%string); (0xB009, "CBC"%string);
   (0xB00A, "NPR-2"%string); (0xB00B, "NPR-3"%string); (0xB00C, "NPR-4"%string);
   (0xB00D, "NPR-5"%string); (0xB00E, "NPR-6"%string)].

(* src/tables.cc:309-323: undo the exceptions for zero nybbles (16-bit arithmetic) *)
Definition undo_zero_nybbles (pi : N) : N :=
  if (N.land pi 0xFFF0 =? 0xAFA0) && (N.land pi 0x000F <? 0x000A) then u16 (N.shiftl pi 12)
  else if N.land pi 0xFF00 =? 0xAF00 then u16 (N.shiftl pi 8)
  else if N.land pi 0xF000 =? 0xA000 then
    N.lor (u16 (N.shiftl (N.land pi 0x0F00) 4)) (N.land pi 0x00FF)
  else pi.

(* src/tables.cc:276-353 *)
Definition getCallsignFromPI (pi : N) : bytes :=
  let pi := undo_zero_nybbles pi in
  if (0x9950 <=? pi) && (pi <=? 0x9EFF) then
    match find_code pi three_letter_codes with Some s => bs s | None => [] end
  else if (N.shiftr pi 12 =? 0xB) || (N.shiftr pi 12 =? 0xD) || (N.shiftr pi 12 =? 0xE) then
    match find_code (N.land pi 0xF0FF) linked_station_codes with Some s => bs s | None => [] end
  else if (0x1000 <=? pi) && (pi <=? 0x994F) then
    let c0 := if pi <=? 0x54A7 then 75 else 87 in
    let pi := pi - (if pi <=? 0x54A7 then 0x1000 else 0x54A8) in
    [c0; 65 + (pi / (26 * 26)) mod 26; 65 + (pi / 26) mod 26; 65 + pi mod 26]
  else [].

(* src/groups.cc:1283-1301 *)
Definition dab_channels : list (N * string) :=
  [(174928, "5A"%string); (176640, "5B"%string); (178352, "5C"%string);
   (180064, "5D"%string); (181936, "6A"%string); (183648, "6B"%string);
   (185360, "6C"%string); (187072, "6D"%string); (188928, "7A"%string);
   (190640, "7B"%string); (192352, "7C"%string); (194064, "7D"%string);
   (195936, "8A"%string); (197648, "8B"%string); (199360, "8C"%string);
   (201072, "8D"%string); (202928, "9A"%string); (204640, "9B"%string);
   (206352, "9C"%string); (208064, "9D"%string); (209936, "10A"%string);
   (211648, "10B"%string); (213360, "10C"%string); (215072, "10D"%string);
   (216928, "11A"%string); (218640, "11B"%string); (220352, "11C"%string);
   (222064, "11D"%string); (223936, "12A"%string); (225648, "12B"%string);
   (227360, "12C"%string); (229072, "12D"%string); (230784, "13A"%string);
   (232496, "13B"%string); (234208, "13C"%string); (235776, "13D"%string);
   (237488, "13E"%string); (239200, "13F"%string); (1452960, "LA"%string);
   (1454672, "LB"%string); (1456384, "LC"%string); (1458096, "LD"%string);
   (1459808, "LE"%string); (1461520, "LF"%string); (1463232, "LG"%string);
   (1464944, "LH"%string); (1466656, "LI"%string); (1468368, "LJ"%string);
   (1470080, "LK"%string); (1471792, "LL"%string); (1473504, "LM"%string);
   (1475216, "LN"%string); (1476928, "LO"%string); (1478640, "LP"%string);
   (1480352, "LQ"%string); (1482064, "LR"%string); (1483776, "LS"%string);
   (1485488, "LT"%string); (1487200, "LU"%string); (1488912, "LV"%string);
   (1490624, "LW"%string)].

(* src/text/rdsstring.cc:39-55: the UTF-8 bytes of each of the 256 characters *)
Definition codetable_G0 : list bytes :=
  [[32]; [32]; [32]; [32]; [32]; [32]; [32]; [32];
   [32]; [32]; [10]; [32]; [32]; [13]; [32]; [32];
   [32]; [32]; [32]; [32]; [32]; [32]; [32]; [32];
   [32]; [32]; [32]; [32]; [32]; [32]; [32]; [194; 173];
   [32]; [33]; [34]; [35]; [194; 164]; [37]; [38]; [39];
   [40]; [41]; [42]; [43]; [44]; [45]; [46]; [47];
   [48]; [49]; [50]; [51]; [52]; [53]; [54]; [55];
   [56]; [57]; [58]; [59]; [60]; [61]; [62]; [63];
   [64]; [65]; [66]; [67]; [68]; [69]; [70]; [71];
   [72]; [73]; [74]; [75]; [76]; [77]; [78]; [79];
   [80]; [81]; [82]; [83]; [84]; [85]; [86]; [87];
   [88]; [89]; [90]; [91]; [92]; [93]; [226; 128; 149]; [95];
   [226; 128; 150]; [97]; [98]; [99]; [100]; [101]; [102]; [103];
   [104]; [105]; [106]; [107]; [108]; [109]; [110]; [111];
   [112]; [113]; [114]; [115]; [116]; [117]; [118]; [119];
   [120]; [121]; [122]; [123]; [124]; [125]; [194; 175]; [32];
   [195; 161]; [195; 160]; [195; 169]; [195; 168]; [195; 173]; [195; 172]; [195; 179]; [195; 178];
   [195; 186]; [195; 185]; [195; 145]; [195; 135]; [197; 158]; [206; 178]; [194; 161]; [196; 178];
   [195; 162]; [195; 164]; [195; 170]; [195; 171]; [195; 174]; [195; 175]; [195; 180]; [195; 182];
   [195; 187]; [195; 188]; [195; 177]; [195; 167]; [197; 159]; [199; 167]; [196; 177]; [196; 179];
   [194; 170]; [206; 177]; [194; 169]; [226; 128; 176]; [199; 166]; [196; 155]; [197; 136]; [197; 145];
   [207; 128]; [226; 130; 172]; [194; 163]; [36]; [226; 134; 144]; [226; 134; 145]; [226; 134; 146]; [226; 134; 147];
   [194; 186]; [194; 185]; [194; 178]; [194; 179]; [194; 177]; [196; 176]; [197; 132]; [197; 177];
   [194; 181]; [194; 191]; [195; 183]; [194; 176]; [194; 188]; [194; 189]; [194; 190]; [194; 167];
   [195; 129]; [195; 128]; [195; 137]; [195; 136]; [195; 141]; [195; 140]; [195; 147]; [195; 146];
   [195; 154]; [195; 153]; [197; 152]; [196; 140]; [197; 160]; [197; 189]; [195; 144]; [196; 191];
   [195; 130]; [195; 132]; [195; 138]; [195; 139]; [195; 142]; [195; 143]; [195; 148]; [195; 150];
   [195; 155]; [195; 156]; [197; 153]; [196; 141]; [197; 161]; [197; 190]; [196; 145]; [197; 128];
   [195; 131]; [195; 133]; [195; 134]; [197; 146]; [197; 183]; [195; 157]; [195; 149]; [195; 152];
   [195; 158]; [197; 138]; [197; 148]; [196; 134]; [197; 154]; [197; 185]; [197; 166]; [195; 176];
   [195; 163]; [195; 165]; [195; 166]; [197; 147]; [197; 181]; [195; 189]; [195; 181]; [195; 184];
   [195; 190]; [197; 139]; [197; 149]; [196; 135]; [197; 155]; [197; 186]; [197; 167]; [32]].

(* src/text/rdsstring.cc:37-59 *)
Definition getRDSCharString (code : N) : bytes := nth (N.to_nat code) codetable_G0 [].
