(* Alternative frequencies as transmitted (IEC 62106-2, AF codes): independent of the model. *)
From Verif.Model Require Import Base Group.
From Verif.Spec Require Import Numerals JsonText Session.

(* A transmittable frequency: an FM code 1..204 or an LF/MF code 1..135. *)
Inductive tx_freq := TxFM (code : N) | TxLFMF (code : N).

Definition tx_freq_ok (f : tx_freq) : Prop :=
  match f with
  | TxFM c => 1 <= c /\ c <= 204
  | TxLFMF c => 1 <= c /\ c <= 135
  end.

(* Its frequency in kilohertz: FM 87.6 MHz + 100 kHz steps; LF 153 .. 279 kHz and MF 531 .. 1602 kHz,
   both in 9 kHz steps. *)
Definition freq_kHz (f : tx_freq) : N :=
  match f with
  | TxFM c => 87600 + 100 * (c - 1)
  | TxLFMF c => if c <=? 15 then 153 + 9 * (c - 1) else 531 + 9 * (c - 16)
  end.

(* The codes that transmit it: an LF/MF frequency is announced by code 250. *)
Definition freq_codes (f : tx_freq) : list N :=
  match f with
  | TxFM c => [c]
  | TxLFMF c => [250; c]
  end.

Definition filler : N := 205.

(* The codes of a list of frequencies, with filler codes anywhere between two frequencies. *)
Inductive listed : list tx_freq -> list N -> Prop :=
| listed_nil : listed [] []
| listed_filler : forall fs cs, listed fs cs -> listed fs (filler :: cs)
| listed_freq : forall f fs cs, tx_freq_ok f -> listed fs cs -> listed (f :: fs) (freq_codes f ++ cs).

(* A whole list: the number of frequencies (code 224 + n, 1 <= n <= 25), then the frequencies. *)
Definition af_transmission (fs : list tx_freq) (codes : list N) : Prop :=
  (1 <= length fs)%nat /\ (length fs <= 25)%nat /\
  exists cs, codes = (224 + N.of_nat (length fs)) :: cs /\ listed fs cs.

(* Method B: the tuned frequency first, then pairs that each contain it.  A pair in ascending order
   is another frequency of the same programme, a pair in descending order a regional variant. *)
Inductive b_entry := SameProgramme (f : N) | RegionalVariant (f : N).
Definition entry_freq (e : b_entry) : N :=
  match e with SameProgramme f => f | RegionalVariant f => f end.
Definition b_pair (tuned : N) (e : b_entry) : list N :=
  match e with
  | SameProgramme f => if f <? tuned then [f; tuned] else [tuned; f]
  | RegionalVariant f => if f <? tuned then [tuned; f] else [f; tuned]
  end.
Definition b_list (tuned : N) (es : list b_entry) : list N := tuned :: flat_map (b_pair tuned) es.

Definition same_programme (es : list b_entry) : list N :=
  flat_map (fun e => match e with SameProgramme f => [f] | RegionalVariant _ => [] end) es.
Definition regional_variants (es : list b_entry) : list N :=
  flat_map (fun e => match e with SameProgramme _ => [] | RegionalVariant f => [f] end) es.

(* What a group of type 0 brings for the list: two codes (0A), or nothing because its third block was
   not received. *)
Inductive af_event := AfCodes (c1 c2 : N) | AfMissed.
Definition af_events (x : Group * N) : list af_event :=
  let '(g, w) := x in
  if (w =? 0) && g_has_type g && (gt_number (g_type g) =? 0) && negb (Version_eqb (gt_version (g_type g)) VC) then
    if blk_is_received (g_b3 g) then
      match gt_version (g_type g) with
      | VA => [AfCodes (blk_data (g_b3 g) / 256) (blk_data (g_b3 g) mod 256)]
      | _ => []
      end
    else [AfMissed]
  else [].
Definition codes_of (evs : list af_event) : list N :=
  flat_map (fun e => match e with AfCodes c1 c2 => [c1; c2] | AfMissed => [] end) evs.

(* A JSON array of these numbers *)
Definition numbers (v : jval) (l : list N) : Prop :=
  exists vs, v = VArr vs /\ Forall2 (fun v n => exists t, v = VNum t /\ numeral 10 t = Some n) vs l.
(* The line shows these numbers at the path, in this order; for no numbers there is no array *)
Definition shows_numbers (line : bytes) (path : list string) (l : list N) : Prop :=
  match l with
  | [] => line_at path line = None
  | _ => exists v, says line path v /\ numbers v l
  end.

(* The frequencies in a sequence of codes that follows a count code: 250 announces an LF/MF frequency,
   205 (filler) and 224 (no frequency) are passed over, any other code that is not a frequency spoils
   the list. *)
Definition read_code (r : option (bool * list N)) (c : N) : option (bool * list N) :=
  match r with
  | None => None
  | Some (lf, l) =>
      if c =? 250 then Some (true, l)
      else if (c =? filler) || (c =? 224) then Some (false, l)
      else if (1 <=? c) && (c <=? (if lf then 135 else 204))
      then Some (false, (l ++ [freq_kHz (if lf then TxLFMF c else TxFM c)])%list)
      else None
  end.
(* The codes end with a count code for n frequencies and, after it, codes that give these frequencies *)
Definition since_count (codes : list N) (n : N) (freqs : list N) : Prop :=
  exists pre after lf, codes = (pre ++ (224 + n) :: after)%list /\ 1 <= n <= 25 /\
    fold_left read_code after (Some (false, [])) = Some (lf, freqs).

(* Some of the elements of a list, in order *)
Inductive some_of {A : Type} : list A -> list A -> Prop :=
| some_nil : some_of [] []
| some_kept : forall x part whole, some_of part whole -> some_of (x :: part) (x :: whole)
| some_lost : forall x part whole, some_of part whole -> some_of part (x :: whole).
