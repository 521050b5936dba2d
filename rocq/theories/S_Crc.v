(* Independent specification of the check value: polynomial arithmetic over GF(2), and
   the error patterns a user cares about. Polynomials are N, bit i = coefficient of x^i. *)
From Verif Require Import M_Base.

(* product of polynomials over GF(2) *)
Fixpoint clmul_pos (p : positive) (g : N) : N :=
  match p with
  | xH => g
  | xO p' => 2 * clmul_pos p' g
  | xI p' => N.lxor (2 * clmul_pos p' g) g
  end.
Definition clmul (q g : N) : N := match q with N0 => 0 | Npos p => clmul_pos p g end.

(* x^16 + x^12 + x^5 + 1 *)
Definition G_CCITT : N := 69665.

(* r is the CRC of msg from start value [start]: the remainder of
   start * x^(8n) + msg * x^16 modulo the generator, n being the number of message bytes. *)
Definition is_crc (start : N) (msg : list N) (r : N) : Prop :=
  r < 65536 /\
  exists q, N.lxor (N.lxor (N.shiftl start (8 * lenN msg)) (N.shiftl (be_val msg) 16)) r
            = clmul q G_CCITT.

(* bit i of a byte string, most significant bit of each byte first *)
Definition bitN (l : list N) (i : N) : bool := N.testbit (nthN l (i / 8)) (7 - i mod 8).

(* number of bit positions in which two byte strings differ *)
Definition bit_distance (a b : list N) : N :=
  lenN (filter (fun i => xorb (bitN a i) (bitN b i)) (rangeN 0 (8 * lenN a))).
