(* Basic vocabulary shared by all model files.  Nothing here models a particular C++ function
   unless a citation says so. *)
From Coq Require Export String Ascii Bool NArith ZArith List.
Export ListNotations.
#[global] Open Scope N_scope.

(* Outcome of a C++ computation.
   [Throw] is a C++ exception leaving the function; [UB] is undefined behaviour
   (out-of-range operator[], shift by too much, ...). *)
Inductive res (A : Type) : Type :=
| Ok (a : A)
| Throw (msg : string)
| UB (msg : string).
Arguments Ok {A} a.
Arguments Throw {A} msg.
Arguments UB {A} msg.

Definition bind {A B : Type} (m : res A) (f : A -> res B) : res B :=
  match m with
  | Ok a => f a
  | Throw s => Throw s
  | UB s => UB s
  end.

Notation "x <- m ;; k" := (bind m (fun x => k))
  (at level 61, m at next level, right associativity).
Notation "' p <- m ;; k" := (bind m (fun x => let p := x in k))
  (at level 61, p pattern, m at next level, right associativity).

(* Byte strings (std::string) are lists of byte values 0..255. *)
Definition bytes := list N.

Fixpoint bs (s : string) : bytes :=
  match s with
  | EmptyString => []
  | String c r => N_of_ascii c :: bs r
  end.

Fixpoint bytes_eqb (a b : bytes) : bool :=
  match a, b with
  | [], [] => true
  | x :: a', y :: b' => (x =? y) && bytes_eqb a' b'
  | _, _ => false
  end.

(* Replace element i; out of range leaves the list unchanged (callers either check the bound or a
   theorem shows the index to be in range). *)
Fixpoint list_set {A : Type} (l : list A) (i : nat) (x : A) : list A :=
  match l, i with
  | [], _ => []
  | _ :: r, O => x :: r
  | y :: r, S j => y :: list_set r j x
  end.

(* Checked element access: operator[] on std::array / std::vector / std::string.
   Reading out of range is undefined behaviour. *)
Definition arr_get {A : Type} (l : list A) (i : N) : res A :=
  match nth_error l (N.to_nat i) with
  | Some x => Ok x
  | None => UB "array index out of range"
  end.

(* Checked element write: a[i] = x. *)
Definition arr_set {A : Type} (l : list A) (i : N) (x : A) : res (list A) :=
  if i <? N.of_nat (length l) then Ok (list_set l (N.to_nat i) x)
  else UB "array write out of range".

Definition u8  (x : N) : N := x mod 0x100.
Definition u16 (x : N) : N := x mod 0x10000.
Definition u32 (x : N) : N := x mod 0x100000000.

(* Unsigned 32-bit subtraction. *)
Definition u32_sub (a b : N) : N := (a + 0x100000000 - b mod 0x100000000) mod 0x100000000.

(* [a; a+1; ...] : n numbers. *)
Fixpoint nseq (a : N) (n : nat) : list N :=
  match n with
  | O => []
  | S k => a :: nseq (a + 1) k
  end.
