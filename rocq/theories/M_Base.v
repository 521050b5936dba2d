(* Basic vocabulary of the model: byte strings as lists of N, big-endian numbers,
   files as byte lists with positioned reads and writes. *)
From Coq Require Export List NArith ZArith Lia Bool.
From Coq Require Export ZifyBool ZifyNat ZifyN.
Export ListNotations.
Global Open Scope N_scope.

Arguments N.add : simpl never.
Arguments N.sub : simpl never.
Arguments N.mul : simpl never.
Arguments N.div : simpl never.
Arguments N.modulo : simpl never.
Arguments N.of_nat : simpl never.
Arguments N.to_nat : simpl never.
Arguments N.pow : simpl never.

(* Rust u8 values are numbers below 256. *)
Definition byte_ok (b : N) : bool := b <? 256.
Definition bytes_ok (l : list N) : bool := forallb byte_ok l.

(* Lengths and slicing with N indices (slices `&buf[a..b]`, `Vec::len`). *)
Definition lenN {A} (l : list A) : N := N.of_nat (length l).
Definition takeN {A} (n : N) (l : list A) : list A := firstn (N.to_nat n) l.
Definition dropN {A} (n : N) (l : list A) : list A := skipn (N.to_nat n) l.
Definition sliceN {A} (pos len : N) (l : list A) : list A := takeN len (dropN pos l).
Definition nthN (l : list N) (i : N) : N := nth (N.to_nat i) l 0.
Definition repN {A} (n : N) (a : A) : list A := repeat a (N.to_nat n).

(* Indices lo, lo+1, ..., lo+n-1 (Rust range loops). *)
Fixpoint seqN (lo : N) (n : nat) : list N :=
  match n with
  | O => []
  | S n' => lo :: seqN (lo + 1) n'
  end.
Definition rangeN (lo hi : N) : list N := seqN lo (N.to_nat (hi - lo)).

(* Big-endian encoding on k bytes (`to_be` + transmute) and its inverse (nom be_uXX). *)
Fixpoint be_bytes (k : nat) (x : N) : list N :=
  match k with
  | O => []
  | S k' => (x / 256 ^ N.of_nat k') mod 256 :: be_bytes k' x
  end.
Definition be_val (l : list N) : N := fold_left (fun a b => a * 256 + b) l 0.

(* Equality of byte strings. *)
Fixpoint eqbl (a b : list N) : bool :=
  match a, b with
  | [], [] => true
  | x :: a', y :: b' => (x =? y) && eqbl a' b'
  | _, _ => false
  end.

(* Fixed-width unsigned arithmetic. *)
Definition u8 (x : N) : N := x mod 256.
Definition u16 (x : N) : N := N.land x 65535. (* the low 16 bits *)
Definition u32 (x : N) : N := x mod 4294967296.
Definition u64 (x : N) : N := x mod 18446744073709551616.
Definition U32_MAX : N := 4294967295.
Definition U64_MAX : N := 18446744073709551615.

(* Result of a fallible Rust computation: Ok, Err(e), or a panic. *)
Inductive error : Type :=
| IncorrectBlockType
| IncorrectBufferSize
| TooMuchMetadata
| InvalidCRC
| SeqNumOverflow
| ParseError
| FailedPred
| OtherError.
Inductive result (A : Type) : Type :=
| ROk (a : A)
| RErr (e : error)
| RPanic.
Arguments ROk {A} a.
Arguments RErr {A} e.
Arguments RPanic {A}.

(* Files. A regular file is its byte content. *)
Definition file := list N.
(* Reading len bytes at pos: what is available (OS read on a regular file). *)
Definition file_read (f : file) (pos len : N) : list N := sliceN pos len f.
(* Writing at pos: replaces bytes, a gap after the old end is filled with zeros
   (seek beyond the end followed by a non-empty write). *)
Definition file_write (f : file) (pos : N) (d : list N) : file :=
  match d with
  | [] => f
  | _ => takeN pos f ++ repN (pos - lenN f) 0 ++ d ++ dropN (pos + lenN d) f
  end.
(* File::set_len *)
Definition file_set_len (f : file) (n : N) : file :=
  takeN n f ++ repN (n - lenN f) 0.
