(* Files sent over the additional data streams (RDS2 file transfer), as transmitted: independent of the
   model. *)
From Verif.Model Require Import Base Group.
From Verif.Spec Require Import JsonText Session Identity History.

(* Groups of the additional data streams are of type C *)
Definition type_c (g : Group) (w : N) : bool :=
  negb (w =? 0) || (g_has_type g && Version_eqb (gt_version (g_type g)) VC).
Definition all_received (g : Group) : bool :=
  blk_is_received (g_b1 g) && blk_is_received (g_b2 g) && blk_is_received (g_b3 g) && blk_is_received (g_b4 g).

(* A segment: its pipe, the toggle bit of the file, its number in the file, and five bytes *)
Definition segment_in (x : Group * N) : option (N * N * N * list N) :=
  let '(g, w) := x in
  let '(b1, b2, b3, b4) := (blk_data (g_b1 g), blk_data (g_b2 g), blk_data (g_b3 g), blk_data (g_b4 g)) in
  if type_c g w && all_received g && (b1 / 4096 =? 2)
  then Some ((b1 / 256) mod 16, (b1 / 128) mod 2, (b1 mod 128) * 256 + b2 / 256,
             [b2 mod 256; b3 / 256; b3 mod 256; b4 / 256; b4 mod 256])
  else None.
(* The size of the file on a pipe *)
Definition size_in (x : Group * N) : option (N * N) :=
  let '(g, w) := x in
  let '(b1, b3, b4) := (blk_data (g_b1 g), blk_data (g_b3 g), blk_data (g_b4 g)) in
  if type_c g w && all_received g && (b1 / 16 =? 0x800) && (b3 / 4096 =? 0)
  then Some (b1 mod 16, (b3 mod 4) * 65536 + b4)
  else None.
(* A file has at most 32768 segments; other sizes are ignored *)
Definition largest_file : N := 163840.

(* The groups for which a line was printed, with their data streams and lines *)
Definition lines_in (gs : list (Z * Group * N)) (out : list (option bytes)) : list (Group * N * bytes) :=
  flat_map (fun x => match x with (_, g, w, Some l) => [(g, w, l)] | _ => [] end) (combine gs out).

(* The line shows a file *)
Definition contents : list string := ["rft"%string; "data"%string; "file_contents"%string].
Definition shows_file (line : bytes) : bool := match line_at contents line with Some _ => true | None => false end.

(* The last size of the file on pipe q; the history is given newest first *)
Fixpoint last_size (q : N) (h : list (Group * N * bytes)) : option N :=
  match h with
  | [] => None
  | (x, _) :: r =>
    match size_in x with
    | Some (q', n) => if (q' =? q) && (n <=? largest_file) then Some n else last_size q r
    | None => last_size q r
    end
  end.
(* The segments of the file with toggle bit t on pipe q that were received since the toggle bit was last
   different and since a file was last shown for that pipe; newest first *)
Fixpoint segments_since (q t : N) (h : list (Group * N * bytes)) : list (N * list N) :=
  match h with
  | [] => []
  | (x, line) :: r =>
    match segment_in x with
    | Some (q', t', a, d) =>
      if q' =? q then
        if shows_file line then [] else if t' =? t then (a, d) :: segments_since q t r else []
      else segments_since q t r
    | None => segments_since q t r
    end
  end.
(* The newest segment with number a *)
Fixpoint newest (a : N) (l : list (N * list N)) : option (list N) :=
  match l with
  | [] => None
  | (a', d) :: r => if a' =? a then Some d else newest a r
  end.
(* These are the first n bytes that the segments give *)
Definition bytes_from (segments : list (N * list N)) (n : N) (file : list N) : Prop :=
  N.of_nat (length file) = n /\
  forall i, i < n -> exists d, newest (i / 5) segments = Some d /\ nth_error file (N.to_nat i) = nth_error d (N.to_nat (i mod 5)).

(* Segment number a of a file: five bytes of it; what comes after the end of the file is arbitrary *)
Definition segment_of (file : list N) (a : N) (d : list N) : Prop :=
  length d = 5%nat /\
  forall k, k < 5 -> 5 * a + k < N.of_nat (length file) -> nth_error d (N.to_nat k) = nth_error file (N.to_nat (5 * a + k)).

(* What the groups say about pipe q is: segments of this file, with this toggle bit, and its size *)
Definition sends (q t : N) (file : list N) (x : Group * N) : Prop :=
  (forall t' a d, segment_in x = Some (q, t', a, d) -> t' = t /\ segment_of file a d) /\
  (forall n, size_in x = Some (q, n) -> n = N.of_nat (length file)).
(* The group says nothing about the segments, or the size, of the file on pipe q *)
Definition no_segment (q : N) (x : Group * N) : Prop := forall t a d, segment_in x <> Some (q, t, a, d).
Definition no_size (q : N) (x : Group * N) : Prop := forall n, size_in x <> Some (q, n).
(* The last segment on pipe q: its toggle bit and its line; the history is given newest first *)
Fixpoint last_segment (q : N) (h : list (Group * N * bytes)) : option (N * bytes) :=
  match h with
  | [] => None
  | (x, line) :: r =>
    match segment_in x with
    | Some (q', t, _, _) => if q' =? q then Some (t, line) else last_segment q r
    | None => last_segment q r
    end
  end.
(* A new file begins on pipe q, with toggle bit t: there was no segment before it, or the last one was of
   another file, or completed a file.  gs are all groups before it, h the lines since the program has
   settled on the station. *)
Definition new_file (q t : N) (gs : list (Group * N)) (h : list (Group * N * bytes)) : Prop :=
  Forall (no_segment q) gs \/
  exists t' line, last_segment q (rev h) = Some (t', line) /\ (t' <> t \/ shows_file line = true).
(* No size has been announced on pipe q, or n was the last *)
Definition no_other_size (q n : N) (gs : list (Group * N)) (h : list (Group * N * bytes)) : Prop :=
  Forall (no_size q) gs \/ last_size q (rev h) = Some n.
