(* Independent specification of the RDS baseband code (IEC 62106 / EN 50067 Annex B), transmitter
   side.  Polynomials over GF(2) are numbers: bit i is the coefficient of x^i. *)
From Verif.Model Require Import Base Group.

(* g(x) = x^10 + x^8 + x^7 + x^5 + x^4 + x^3 + 1 *)
Definition gen_poly : N := 2^10 + 2^8 + 2^7 + 2^5 + 2^4 + 2^3 + 1.

(* Schoolbook long division: clear the coefficients of x^(9+steps) ... x^10 from the top by
   subtracting (xor) multiples of g(x); what is left is the remainder. *)
Fixpoint remainder_by_g (steps : nat) (v : N) : N :=
  match steps with
  | O => v
  | S k =>
    remainder_by_g k
      (if N.testbit v (10 + N.of_nat k) then N.lxor v (N.shiftl gen_poly (N.of_nat k)) else v)
  end.

(* The checkword of a 16-bit information word m(x) is the remainder of m(x) x^10 by g(x). *)
Definition checkword (data : N) : N := remainder_by_g 16 (N.shiftl data 10).

(* Offset words, IEC 62106 Table B.1 (d9 ... d0). *)
Definition offset_word (o : Offset) : N :=
  match o with
  | OffA => 0xFC       (* 0011111100 *)
  | OffB => 0x198      (* 0110011000 *)
  | OffC => 0x168      (* 0101101000 *)
  | OffCprime => 0x350 (* 1101010000 *)
  | OffD => 0x1B4      (* 0110110100 *)
  | OffInvalid => 0
  end.

(* The five offsets a transmitter uses. *)
Definition real_offset (o : Offset) : Prop := o <> OffInvalid.

(* The 26-bit block sent for an information word. *)
Definition tx_block (o : Offset) (data : N) : N :=
  N.lxor (N.shiftl data 10 + checkword data) (offset_word o).

(* Channel errors are xor patterns on the 26 bits.  A burst starting at bit i spans [len] bits if
   its pattern, shifted down by i, has lowest and highest bits set. *)
Definition burst (len : N) (e : N) : Prop :=
  exists i p, e = N.shiftl p i /\ N.testbit p 0 = true /\ N.log2 p = len - 1 /\ 0 < len /\
              i + len <= 26.

(* One bit, or two adjacent bits, of a 26-bit block. *)
Definition short_burst (e : N) : Prop := burst 1 e \/ burst 2 e.
