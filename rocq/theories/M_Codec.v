(* The Reed-Solomon code of the library blkar uses (reed-solomon-erasure 4.0.1, /repo/Cargo.toml:48; called in
   src/data_block_buffer/mod.rs:357-376 and src/rs_codec/repairer.rs:262-312). The source of the library is not part of /repo.
   What is modelled is the code it documents: shards are columns of elements of GF(2^8) with generating polynomial 0x11D, and the
   d + p shards are the values, at the points 0, 1, ..., d+p-1, of the polynomial of degree less than d through the d data shards
   (the matrix of the library is the Vandermonde matrix of these points times the inverse of its top square, which is this
   map). Computing by matrices and tables is replaced by interpolation. *)
From Verif Require Import M_Base M_Buffer M_Repair.

(* multiplication by x modulo x^8 + x^4 + x^3 + x^2 + 1 *)
Definition xtime (a : N) : N := if 2 * a <? 256 then 2 * a else N.lxor (2 * a) 285.
Fixpoint gmul_bits (n : nat) (a b : N) : N :=
  match n with
  | O => 0
  | S n' => N.lxor (if N.odd b then a else 0) (gmul_bits n' (xtime a) (N.div2 b))
  end.
(* product in GF(2^8) *)
Definition gmul (a b : N) : N := gmul_bits 8 a b.
(* a^(2 + 4 + ... + 128) = a^254, the inverse of a *)
Fixpoint ginv_pow (n : nat) (a : N) : N :=
  match n with
  | O => 1
  | S n' => let s := gmul a a in gmul s (ginv_pow n' s)
  end.
Definition ginv (a : N) : N := ginv_pow 7 a.

(* polynomials: lists of coefficients, the constant first *)
Fixpoint peval (p : list N) (x : N) : N :=
  match p with [] => 0 | c :: p' => N.lxor c (gmul x (peval p' x)) end.
Fixpoint padd (p q : list N) : list N :=
  match p, q with
  | [], _ => q
  | _, [] => p
  | a :: p', b :: q' => N.lxor a b :: padd p' q'
  end.
Definition pscale (c : N) (p : list N) : list N := map (gmul c) p.
(* the polynomial with the roots l *)
Fixpoint vanish (l : list N) : list N :=
  match l with [] => [1] | r :: l' => padd (0 :: vanish l') (pscale r (vanish l')) end.
(* the polynomial through the points l (Newton's interpolation) *)
Fixpoint interpolate (l : list (N * N)) : list N :=
  match l with
  | [] => []
  | (x, y) :: l' =>
      let p := interpolate l' in
      let z := vanish (map fst l') in
      padd p (pscale (gmul (N.lxor y (peval p x)) (ginv (peval z x))) z)
  end.

(* the shard at point x, given shards of n bytes at some other points *)
Definition shard_at (n : N) (known : list (N * list N)) (x : N) : list N :=
  map (fun c => peval (interpolate (map (fun k => (fst k, nthN (snd k) c)) known)) x) (rangeN 0 n).

(* ReedSolomon::encode: the parity shards *)
Definition rs_encode : codec := fun d p data =>
  let n := lenN (nth 0 data []) in
  map (shard_at n (combine (rangeN 0 d) data)) (rangeN d (d + p)).
(* ReedSolomon::reconstruct: an error with fewer than d shards, otherwise the missing ones are computed from the first d *)
Definition rs_reconstruct : recon := fun d p sh =>
  let n := lenN (fst (nth 0 sh ([], false))) in
  let numbered := combine (rangeN 0 (d + p)) sh in
  let present := map (fun k => (fst k, fst (snd k))) (filter (fun k => snd (snd k)) numbered) in
  if lenN present <? d then None
  else Some (map (fun k => if snd (snd k) : bool then fst (snd k) else shard_at n (takeN d present) (fst k)) numbered).
